"""Writes DESIGN.md: the text below, then one entry per property from properties.jsonl and MANIFEST.json."""
import json, os
here = os.path.dirname(os.path.abspath(__file__))
HEAD = r'''# flatdata in Rocq: design

Technique: shallow, computable Gallina models of the code, branch by branch, with exceptions as values
(`res A := Ok a | Err e`).  Python integers are `Z` (unbounded; the two's-complement bit operations of `Z`
coincide with Python's), byte strings are `list Z`, strings are Coq `string`s.  Mutation becomes "returns
the new value"; file-system effects are an explicit list of operations.  Every model definition cites the
file and lines it models and says where it simplifies.  Specifications are in separate `*Spec.v` files that
do not use the model's helpers beyond its data types; proofs are in `*Facts.v` / `*Thms.v`; the property
theorems, named `Cnn_...`, are in `Props_*.v`, next to instances (`_instance`) showing that the hypotheses
are met by concrete, non-trivial cases, and to refutations (`_refuted`) where the code does not do what the
property says.  A theorem named `_partial` proves a restriction of the property; the property's full
statement is in properties.jsonl and what is missing is in the note below.

## Model files (rocq/theories) and the code they model

| model | code | specification |
|---|---|---|
| `PyBase.v`, `PyText.v` | Python primitives: lists, slices, int/bytes, str methods | `Spec.v`, `SliceSpec.v` |
| `DataAccess.v` | flatdata-py data_access.py | `Spec.v` |
| `Structure.v` | structure.py, record packing of archive_builder.py | `StructSpec.v` |
| `Resources.v`, `Utf8.v` | resources.py (Instance, RawData, Vector, Multivector, numpy views) | `ResourceSpec.v`, `SliceSpec.v` |
| `Builder.v` | resource_storage.py, file_resource_writer.py, archive_builder.py | `ArchiveSpec.v`, `HistorySpec.v` |
| `Archive.v` | archive.py, file_resource_storage.py, tar_archive_resource_storage.py | `OpenSpec.v`, `TarSpec.v` |
| `Writer.v` | flatdata_writer.py, inspector.py (selection and opening) | in Props |
| `Grammar.v` | generator grammar.py and the parts of pyparsing it uses | `GrammarSpec.v` |
| `GenTypes.v` | generator basictype.py, constant.py, enumeration*.py | `GenSpec.v` |
| `GenTree.v` | tree/nodes/*.py (node operations, references) | `GenAstSpec.v` |
| `GenTraversal.v` | tree/traversal.py | `GraphSpec.v` |
| `GenBuild.v` | tree/builder.py, resolver.py, create functions of all node classes | `GenAstSpec.v`, `DeclSpec.v`, `AcceptSpec.v` |
| `GenFlatdata.v` | generators/flatdata.py, templates/flatdata/*, SyntaxTree.schema, extract_subtree | `EmbedSpec.v`, `SameSpec.v`, `NormSpec.v` |
| `GenPython.v` | generators/python.py, templates/py/*, and executing the generated module | `GenOutSpec.v`, `UsableSpec.v` |
| `Codecs.v` | C++ Reader.h / Writer.h, Rust flatdata_read_bytes! / flatdata_write_bytes!, Go bit readers | `CodecSpec.v` |
| `CppTar.v` | C++ TarReader.cpp, MemoryMappedTarFileStorage.h, TarArchiveResourceStorage.h | `CppTarSpec.v` |
| `Streams.v`, `CppStore.v` | C++ ResourceStorage.h, File/MemoryResourceStorage.h, ResourceHandle.h, ExternalVector.h, Vector.h, MultiVector.h, ArrayView.h, MultiArrayView.h | `StoreSpec.v`, `ArchiveSpec.v` |
| `CppArchive.v` | C++ Archive.cpp, ArchiveBuilder.cpp, Archive.h, generated archives and builders (templates/cpp/archive.jinja2) | `CppArchiveSpec.v`, `CppSessionSpec.v` |
| `RustStore.v` | Rust storage.rs, filestorage.rs, memstorage.rs, vector.rs, multivector.rs, arrayview.rs, multiarrayview.rs, rawdata.rs, templates/rust/{structure,index,variadic}.jinja2 | `RustSpec.v` |
| `RustArchive.v` | Rust archives and builders: templates/rust/archive.jinja2, storage.rs:132-285 | `RustArchiveSpec.v`, `RustSessionSpec.v`, `CrossSpec.v` |
| `GoArchive.v` | Go library and generated Go archives: flatdata-go/flatdata/resource.go, templates/go/*.jinja2 | `GoSpec.v` |
| `GenLiterals.v` | the literals for schemas in templates/cpp, rust, go, py and the filters escaping them | `LiteralSpec.v` (how the languages read literals) |
| `NestedSpec.v` (`directory`) | directories of archives with sub-archives, written by the builders of each type (archive_builder.py:119-125: `subarchive` does nothing) | `NestedSpec.v` |
| `GenEngine.v` | engine.py:58-102, inspector.py:74-80 | from the text of a schema to the class of one archive |
| `CppIter.v` | C++ iterators over arrays (ArrayViewIterator.inl, ArrayView.inl:125-137), the algorithm of `std::lower_bound` on them, `copy_struct` (Copy.h), `hash_struct` (Hash.h), `Struct` (Struct.h) | `IterSpec.v` (places of an array) |
| `RustTar.v` | flatdata-rs/lib/src/tarstorage.rs, with the components of `std::path` on Unix; the `tar` crate is trusted for the list of members | `RustTarSpec.v`, `TarSpec.v` (a tar of a tree) |
| `GenDot.v` | generators/dot.py, templates/dot/*, the binding functions of tree/syntax_tree.py; texts as clusters, nodes with ports and arrows, without colours and fonts | `DotSpec.v` |
| `RustBuild.v` | flatdata-rs/lib/src/generator.rs:116-170 (walking the schemas, output paths, running the generator) and flatdata-generator app.py:53-81; a file system as a map from paths | `BuildSpec.v` |
| `MergeBuiltins.v`, `MergeNames.v` | what append_builtins adds, by paths; trees with the same kinds at the same paths have the same meaning of names (C47) |
| `OrderSpec.v` | vocabulary for C102: schemas with the same definitions |
| `GenPaths.v` | paths of types and constants in generated Rust and C++ code (generators/rust.py:76-88, generators/cpp.py:31-44, tree/nodes/node.py:78-90) | `PathSpec.v` (how Rust and C++ read a path in a module) |
| `GenNames.v` | names declared by generated Rust and C++ code (generators/rust.py, generators/cpp.py, templates/rust, templates/cpp) | `NameSpec.v` (identifiers, keywords and names taken by the templates), `NameFacts.v`, `Props_Names.v` |
| `GenNumbers.v` | numbers in generated code (generators/rust.py:34-42, constant and enumeration templates) | `NumberSpec.v` |
| `GenStructs.v` | the members, comparison and copying of generated Rust and C++ structures (templates/rust/structure.jinja2, templates/cpp/structure.jinja2) | `StructOpsSpec.v` |
| `GenDocs.v` | filters for comments: to_go_doc, to_python_doc, _rust_doc (its regular expression as functions), cpp_doc, jinja2's indent | `DocSpec.v` |
| `CppDiff.v` | flatdata-cpp/src/Archive.cpp:63-228: lines of a text, the table of distances, the way back, the excerpt with context | `DiffSpec.v` |
EXTRA_ROWS
`Conformance_*.v` evaluate the repository's own test vectors on the models (evidence that the models are
faithful; not counted as proofs of properties).

## How the proofs go

* Bit fields (C01-C07, C55): a read is `le (slice) = le / 2^8k mod 2^8m`; a write adds `(v mod 2^w) 2^off`
  to the little-endian value of the buffer.  Records (C08, C09): induction over the fields with invariant
  `le buf < 2^(next offset)`.
* Containers (C10-C24, C58-C60): induction over records and buckets on framed byte strings.
* Archives (C25-C35, C61): opening is a fold over the resources of a storage tree; the builder is a state
  machine that emits file operations; a crash is a prefix of that list; C28 composes the container round
  trips; C33/C34 relate two representations of a directory tree.
* Generator (C36-C50, C57, C62-C65): invariants of trees through every pass of the builder; depth-first
  search with explicit fuel and a proof that it suffices; rendering as lines of words, with a decoding
  argument for C62.  Python's iteration order over sets is a parameter (any permutation).
* Schema text (C68): a recursive-descent parser on characters, proved sound and complete nonterminal by
  nonterminal for a grammar on lexemes; ordered choice is shown not to lose texts.
* Acceptance (C70): each pass succeeds exactly when its rules hold; the later passes are related to the tree of
  declarations by a simulation (`AcceptCarry.ksim`) that keeps what the rules look at.
* Other languages (C51-C54, C66, C67): loops as folds over bytes, related to the same specification of the
  bits / of the tar format as the Python code.
* C++ archives (C76-C77): opening is characterised as a relation between files and the object (`shows`), proved to be functional; a
  building program is a sequence of calls, its meaning (`does`) the list of resources it wrote; an invariant relates every open vector
  to its stream for any interleaving, and a flush that is nothing or more than a block shows that unclosed vectors cannot be read.
* Go archives (C85, C86): opening is proved to give an error iff the files are as `gfails` says (induction over nested archives), and the
  getters to give the bits of the stored record by the exactness of the Go reader (C53) at the position of each element; the multivector's
  shared element objects are modelled as a mutable list of positions, one per type.
* Difference of schemas in C++ (C87): the table holds the least cost for every pair of prefixes (`entry_least` by induction on scripts,
  `backtrack_facts` on the sum of the positions); the masks are characterised by positions (`near`), the printed text by a relation.
* Schemas in literals (C88): escaping is a character-wise encoding (`enc`), read back by induction; raw literals by the position of the
  first delimiter; the characters of schema texts are known from C46's tree invariants (`GenInk.v`).
* Nested archives (C92, and C64, C65 with sub-archives): induction over the contents; in each directory the files of C28 and the subdirectories do not meet.
* Numbers in generated code (C93): the groups of three by induction over the digits; the text without underscores is the decimal text, whose value is known from C49.
* Names (C94): every scope is the list of the names declared in it; `flat` (letters in small, no underscores) is invariant under all the changes of case the generators make, so names that differ in it stay distinct; the names added by templates are told apart by first letter, prefix or suffix.
* Inspector and engine (C96): EngineSpec says what an outermost namespace is. The children of a finished root are exactly the outermost namespaces of the schema (EngineFacts.final_top), so the search for one user namespace is a statement about the schema; the class is then found by C63. What is opened: the stored text denotes a second schema (C49), which gives the same archive up to comments and spelling (C65), and the directory shows its contents (C92, C65_nested); the signature and schema files are the only ones of their kind in the directory.
* C++ iterators and single structures (C97, C98): addresses are integers, the mixed `size_t`/`ptrdiff_t` arithmetic is written with its reductions modulo 2^64; an array is assumed inside the memory and no larger than PTRDIFF_MAX, so that reductions vanish (except in the one wrong difference). Loops and the binary search by induction on the number of structures. Copies: the bits of the structure are those of the source, then C51.
* Rust tar storage (C99): a tar of a tree as for C33; every path, in each spelling, has the components of the node it stands for, so the map from components to ranges is the tree. Archives: the storage gives the answers of a store with the files of the tree (C99_store), then C82.
* Diagrams (C100): the drawing, by induction on the tree, has exactly the clusters and nodes of the places below it; the arrows, archive by archive in dependency order, are those of the explicit references. An explicit reference's field belongs to its structure because both names are looked up in the same namespace (archives contain no structures); identifiers are paths, which '_' for '.' keeps apart when underscores only begin names. What is written on each part is proved along the same induction (DotLabels.v).
* The build helper (C101): what one schema changes, then induction over the walk; later schemas never touch earlier outputs because mirrored paths are injective and end in .rs.
* Merged namespaces (C47): `append_builtins` is characterised by the paths and kinds it adds, independently of the order in which multivectors are visited; so the declared trees of the split and the joined schema have the same kinds at the same paths, names mean the same in both (`names_valid_alike`), and C70 gives equal acceptance; C69 gives equal contents.
* Order of declarations (C102): as for C47, with the declared trees of any two schemas that have the same definitions per namespace.
* Sets (C103): results of the builder with two iteration orders are compared step by step; only the check of the enumeration values sees the order, and it succeeds exactly if every value fits, which is a property of the set.
* Layout (C102): the finished tree keeps the places of the declared one (AcceptCarry), so a field's reference to an enumeration is, in both trees, the same name in the same place; it means the same place (MergeNames), where `alike` puts the same enumeration; sizes and offsets follow from the widths (C36).
* Paths (C95): a path of names without colons has one reading (splitting at `::`); names of a finished tree are words and not empty, a node is determined by the names above it, and `super` is written once for every namespace around the current definition, by the depth of its location.
* Structures in Rust and C++ (C90, C91): on top of C52 and C40, bit by bit; equality of members and unused bits is equality of bytes.
* Comments in code (C89): line-wise characterisation of the filters; for C++ a model of line splicing and comment skipping against the
  grammar's own definition of comments (`GrammarSpec.v`).
* Rust archives (C82-C84): opening is related to file contents by `opens_as`, proved total and functional by induction over the nested
  schema; builder sessions keep an invariant relating the storage to what was asked for (one step lemma per call); agreement with C++ is
  proved between the two specifications, not the two programs.
* Rust library (C78-C81): as for C++; the result of a read is a relation on file contents (`reads_as`) proved total and functional;
  reading a bucket is characterised for arbitrary index bytes.
* C++ library (C71-C75): files are byte strings with open streams (cursors) on them; an open handle is described by
  what is already in the file and what is still buffered, and every operation keeps that description.

## Trusted base

* Coq 8.16.1's kernel, including `vm_compute`, and its standard library.  `Print Assumptions` says "Closed
  under the global context" for every property theorem: no axiom is used.  (A listing of all axioms of the
  loaded libraries mentions `Coq.ssr.ssrunder.*`, which no theorem uses.)  No axioms, admits, functors or
  module types are defined here.
* That the models are what the code does: the comments of each definition give the lines, and mutation tests
  of the models (seeded/LOG.jsonl, tools/mutate.py, tools/mutants*.py) show that the theorems constrain them.
* The semantics attributed to Python, C++, Rust, Go, jinja2 and pyparsing constructs in those comments.

## Not modelled

* pandas / numpy rendering beyond field decoding, `__repr__` texts, logging, command-line parsing (app.py,
  the scripts' argparse), the interactive prompt of the inspector; mmap and the operating system beyond
  whole-file contents and a prefix-of-operations crash model (torn writes are treated in C32 separately);
  memory exhaustion and recursion limits.
* Of the C++, Rust and Go templates: what the generated structures, enumerations, constants, documentation,
  names and paths are is modelled (Gen*.v); that the remaining text of the templates (includes, derive lines,
  formatting code, descriptions) compiles is not.  The layout of fields in generated code is that of the same
  tree attributes as Python's. 
* C++ `MemoryResourceStorage` and `describe`; C++ `Writer` for optional members (does not compile when
  instantiated); C++ debug statistics; Rust `Debug`/`describe` output.
* Generator comments (`doc`) are dropped except where their text matters: C35, C49 and C89.

## Findings (all stated as theorems named `_refuted`)

FINDINGS

## Properties
'''
FINDINGS = [
 ("C02/C05/C08/C51", "unsigned 64-bit fields at unaligned offsets read foreign bits; writing over non-zero bits OR-s"),
 ("C03", "a 1-bit signed field holding -1 reads back as 1"),
 ("C14/C16/C17", "truncated files are accepted; non-byte index widths overflow silently; negative multivector indexes misbehave"),
 ("C22/C26", "empty containers vanish at archive level; an optional multivector lacking only its data raises"),
 ("C25", "an empty schema file inside a tar disables the schema check; index schemas are never checked"),
 ("C85/C86", "Go never reads archive signatures and ignores missing mandatory resources, lower-cases the directories of sub-archives, shares one object per type in multivector buckets and counts sentinels"),
 ("C87", "C++ writes one bit behind a vector when it describes a mismatch (undefined for 64, 128, ... lines) and drops an unchanged last line"),
 ("C93", "Rust: constants and enumerations of type bool are accepted by the generator and give code that does not compile (`pub const C: bool = 1;`). C++: `u64` constants from 2^63 on and the smallest `i64` give decimal literals without a type."),
 ("C94", "Rust: accepted schemas whose generated code does not compile: fields `new`, `set_a` next to `a`, `type` next to `type_`, `async`, `fill_from`, `_`; two fields with `@range(r)` of the same name; enumerators that differ in case or underscores only, or are `_1` or `SELF`; constants `AbCdEf` and `AbCdef`; archive `A` next to structure `ABuilder`; multivectors of the same name in two archives of a namespace, or named like a structure; structures `schema` and `loop`; archive `Match`; resources `type`, `open`, `storage`, or `r` next to `R`."),
 ("C94", "C++: accepted schemas whose generated code does not compile: fields `name`, `data`, `class`, `stream`, `ab` next to `aB`, `a` next to `AType`; enumerator `and`; resources `name`, `open`, `delete`, `a_b` next to `a__b`, `a` next to `m_a`, `a_reader` or a sub-archive `set_a`; archive `A` next to structure `ABuilder`, structure `A` next to `AMutator`, structure `to_string`; structure `A__r` next to an archive `A` with resource `r`."),
 ("C95", "Rust: a constant whose name has small letters (`const u8 Nothing`) is declared in capitals (`NOTHING`) but used by `@optional` as `super::n::Nothing`; the generated code does not compile."),
 ("C96", "The inspector (and the command line writer) can not open archives that the generated module opens: if a structure, enumeration or constant of another outermost namespace is in the stored schema (also constants that the archive does not use: every constant of the whole schema is stored with every archive), if the namespace contains the word builtin, if the archive is in a nested namespace (the stored schema is not accepted by the parser: `namespace a { namespace b {`), or if the stored schema orders two constants differently when it is generated again (the archive is refused as a schema mismatch). C96_refuted."),
 ("C97", "C++: the difference of two array iterators, the second being the later one, divides an unsigned number: for structures of two bytes `begin - (begin + 1)` is 2^63 - 1, not -1. Algorithms that only ask for last - first are not affected."),
 ("C100", "Diagrams: a resource bound by a resource that is itself bound has its arrows start at a node that is not drawn; a resource that binds itself is not drawn, and a reference to it makes the dot generator fail (RecursionError) for an accepted schema; `b_c` in archive `A` and `c` in archive `A_b` are drawn as one; the type of a field of `n`'s structure that is the enumeration E of namespace `nm` is shown as `m.E`"),
 ("C101", "Rust build helper: a folder called `x.flatdata` is passed to the generator as if it were a schema, and the build fails; likewise `a.flatdata` next to a folder `a.rs` with schemas"),
 ("C91", "Rust: a signed enumeration of one bit with the values 0 and -1 is accepted; reading a set bit transmutes 1, which is no variant: undefined behaviour"),
 ("C90", "C++: operator< of structures (all members smaller) is no strict weak order; operator== compares unused bits, Rust's does not"),
 ("C89", "Rust: a line of a block comment that does not start with a star becomes code; C++: a block comment with a backslash-newline between star and slash ends early"),
 ("C32", "finish after a failed set leaves an archive that opens without the resource / with torn data"),
 ("C35/C61", "the writer's archive-name search is misled by the letters 'archive'; the inspector fails on every tar"),
 ("C46", "the size limit of a resource addressed by a signed field is not addressable"),
 ("C47/C63", "a namespace with the path of a definition is merged into the definition"),
 ("C48/C57", "flattened class names and upper-cased schema constants collide"),
 ("C50/C62", "embedded texts contain unrelated constants; references to generator-internal index structures vanish from them"),
 ("C51", "the C++ writer destroys neighbouring fields for negative enumeration values"),
 ("C52/C53", "Rust macros use a wrong ninth byte; Go mis-reads some signed fields and reads past the end"),
 ("C54/C67", "the C++ tar reader ignores the POSIX prefix, mis-assigns long names of directories, rejects space-terminated numbers, can be made to loop for ever by one header, and takes the first of repeated members where Python takes the last"),
]
EXTRA = json.load(open(os.path.join(here, "design_extra.json"))) if os.path.exists(os.path.join(here, "design_extra.json")) else {"rows": [], "findings": []}
out = HEAD.replace("EXTRA_ROWS", "".join("| %s | %s | %s |\n" % tuple(r) for r in EXTRA["rows"]))
out = out.replace("FINDINGS", "\n".join("* %s: %s." % (a, b) for a, b in FINDINGS + [tuple(x) for x in EXTRA["findings"]]))
man = {c["property"]: c for c in json.load(open(os.path.join(here, "../MANIFEST.json")))["claims"]}
for l in open(os.path.join(here, "../properties.jsonl")):
    p = json.loads(l); c = man.get(p["id"])
    out += "* **%s** %s. " % (p["id"], p["title"])
    out += ("Status: %s. %s Theorems: %s.\n" % (c["status"], c["note"], ", ".join("`%s`" % t for t in c["theorems"]))) if c else "Planned.\n"
open(os.path.join(here, "../DESIGN.md"), "w").write(out)
