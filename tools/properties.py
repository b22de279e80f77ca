#!/usr/bin/env python3
"""Source of /verif/properties.jsonl (run: python3 tools/properties.py)."""
import json, os
P = []
def p(title, statement, quantifier, why, *anchors):
    P.append(dict(id="C%02d" % (len(P) + 1), title=title, statement=statement, quantifier=quantifier,
                  why_tests_cant=why, anchors=list(anchors)))
DA = "flatdata-py/flatdata/lib/data_access.py"
ST = "flatdata-py/flatdata/lib/structure.py"
RE = "flatdata-py/flatdata/lib/resources.py"
AR = "flatdata-py/flatdata/lib/archive.py"
AB = "flatdata-py/flatdata/lib/archive_builder.py"
RS = "flatdata-py/flatdata/lib/resource_storage.py"
FS = "flatdata-py/flatdata/lib/file_resource_storage.py"
FW = "flatdata-py/flatdata/lib/file_resource_writer.py"
TA = "flatdata-py/flatdata/lib/tar_archive_resource_storage.py"
IN = "flatdata-py/flatdata/lib/inspector.py"
WR = "flatdata-py/flatdata/lib/flatdata_writer.py"
G = "flatdata-generator/flatdata/generator/"
BT = G + "tree/helpers/basictype.py"
BU = G + "tree/builder.py"
NO = G + "tree/nodes/node.py"
RF = G + "tree/nodes/references.py"
RSV = G + "tree/resolver.py"
TR = G + "tree/traversal.py"
SY = G + "tree/syntax_tree.py"
EN = G + "tree/nodes/trivial/enumeration.py"
CO = G + "tree/nodes/trivial/constant.py"
FI = G + "tree/nodes/trivial/field.py"
SR = G + "tree/nodes/trivial/structure.py"
GR = G + "grammar.py"

# ---- bit fields -------------------------------------------------------------------------------
p("Reading a bit field returns exactly its bits",
  "For a field of 2..63 bits, a signed 64-bit field, or a 64-bit unsigned field starting on a byte boundary, read_value returns the integer whose binary digits are exactly the bits [offset, offset+width) of the little-endian buffer, interpreted as two's complement when the field is signed; for a 1-bit field it returns that bit as 0 or 1.",
  "all byte buffers, all bit offsets and widths for which the field lies inside the buffer, both signednesses",
  "There are 2^(8*len) buffers times 64 widths times every offset; the test vectors sample a few dozen.",
  DA + ":read_value")
p("Reading an unaligned unsigned 64-bit field returns a 64-bit value",
  "read_value of a 64-bit unsigned field at any bit offset returns exactly the 64 bits of that field.",
  "all byte buffers and all bit offsets with the field in bounds",
  "Depends on the neighbouring field's bits being zero in every tested buffer; holds by accident in a test with a zero tail.",
  DA + ":read_value")
p("A written value is read back",
  "If v is representable in the field's width and signedness (a 1-bit signed field excepted), then writing v with write_value and reading the same field with read_value returns v, whatever the buffer held before, provided no bit of the buffer at or after the field's offset was set (the state the builder writes in).",
  "all buffers, offsets, widths 1..64, signednesses, values",
  "The value space alone is 2^64 per field and interacts with alignment and the previous contents of up to 9 bytes.",
  DA + ":read_value", DA + ":write_value")
p("Out-of-range values wrap modulo 2^width",
  "Writing an integer that does not fit a field (2..64 bits wide) into a fresh buffer never raises and stores the value modulo 2^width, leaving every bit outside the field zero.",
  "all integers (unbounded), all offsets and widths",
  "Python integers are unbounded; a test can only try some.",
  DA + ":write_value")
p("Writing a field leaves every other bit of the buffer unchanged",
  "write_value changes no bit of the buffer outside [offset, offset+width).",
  "all buffers, offsets, widths, values",
  "Universal over previous buffer contents and over all bits that must not change.",
  DA + ":write_value")
p("Writing fields in ascending order into a zeroed record never disturbs earlier fields",
  "When the fields of a record are written in ascending, non-overlapping order into a zero-initialised buffer, each write adds exactly its field's bits: every earlier field still reads back its own value and all bits not covered by a field stay zero.",
  "all structure layouts with ascending non-overlapping fields, all values, all prefixes of the write sequence",
  "Needs an invariant over an arbitrary number of fields of arbitrary widths.",
  DA + ":write_value", AB + ":__set_vector", AB + ":__set_instance")
p("In-bounds accesses never raise",
  "read_value and write_value on a field of width 1..64 that lies inside the buffer never raise, and write_value keeps the buffer's length and keeps every element a byte; a write to a field that does not lie entirely inside the buffer always raises IndexError.",
  "all buffers, offsets, widths, values",
  "IndexError conditions depend on the exact combination of offset, alignment, width and length.",
  DA + ":read_value", DA + ":write_value")
# ---- structures -------------------------------------------------------------------------------
p("A structure packs into its declared size and unpacks to the same values",
  "For every structure whose layout the generator computes, building the bytes of a record from a dict of representable field values yields exactly SIZE_IN_BYTES bytes, and reading each field of a Structure view at that position (attribute access, as_dict, as_list, as_tuple) returns the original values in declaration order.",
  "all structure declarations (any number of fields, widths), all representable values, all positions in a resource",
  "Quantifies over all schemas and all values at once.",
  ST + ":Structure", AB + ":__set_instance", BU + ":_compute_structure_sizes")
p("A structure view only depends on its own bytes",
  "Two resources whose bytes agree on [pos, pos+SIZE_IN_BYTES) give identical field values for a structure at pos, except for unaligned unsigned 64-bit fields.",
  "all pairs of buffers, positions, layouts",
  "A relational (two-run) property over all memory contents.",
  ST + ":Structure._get_value", DA + ":read_value")
# ---- containers -------------------------------------------------------------------------------
p("Resource framing",
  "Every resource closed by the builder is stored as an 8-byte little-endian payload size, the payload, and 8 zero bytes; the size header equals the payload length.",
  "all payloads and all containers",
  "Universal over payload contents and lengths.",
  RS + ":_Resource.add_size", RS + ":_Resource.add_padding", AB + ":set")
p("Vector round trip",
  "Setting a vector to a list of records and opening the resulting bytes yields a vector of the same length whose i-th element has exactly the i-th record's values, for non-negative and negative indices, and whose iteration yields all of them in order.",
  "all element structures, all lists of records, all indices",
  "Unbounded lengths and all layouts.",
  AB + ":__set_vector", RE + ":Vector")
p("Vector indexing is list indexing",
  "For every opened vector, v[i] succeeds iff -len(v) <= i < len(v), and otherwise raises IndexError; v[i] and v[i-len(v)] denote the same element.",
  "all vectors, all integers i",
  "All integers.",
  RE + ":Vector.__getitem__")
p("Vector slices are list slices",
  "Iterating v[a:b:s] yields exactly the elements Python list slicing selects, in the same order, for every start/stop/step including omitted and negative ones; a zero step raises.",
  "all vectors, all slices",
  "Infinite index space with sign/None/clipping corner cases.",
  RE + ":_VectorSlice.__iter__", RE + ":Vector.__getitem__")
p("A truncated or oversized vector is never opened silently",
  "Opening a vector whose size header is not a multiple of the element size fails; opening a vector whose payload is shorter than its size header fails.",
  "all byte strings",
  "All corrupted byte strings.",
  RE + ":ResourceBase.__init__", RE + ":Vector.__init__")
p("Multivector round trip",
  "Setting a multivector to a list of buckets and opening the data and index bytes yields a multivector with the same number of buckets; bucket i contains exactly the i-th bucket's elements, in order, each with its type and field values.",
  "all lists of buckets with up to 255 element types, all layouts, all values; total payload below 2^index-width",
  "Unbounded nesting, variable-size elements: needs induction.",
  AB + ":__set_multivector", RE + ":Multivector")
p("A multivector too big for its index is rejected",
  "If a bucket offset does not fit the index type's width the builder raises instead of storing a wrong offset.",
  "all index widths and payload sizes",
  "The failing sizes are exactly the ones no unit test creates.",
  AB + ":IndexWriter.add", AB + ":__set_multivector", RE + ":Multivector._bucket_offset")
p("Multivector indices behave like list indices",
  "mv[i] for negative i denotes bucket len(mv)+i, and out-of-range indices raise IndexError.",
  "all multivectors, all integers",
  "All integers and all index vectors.",
  RE + ":Multivector.__getitem__")
p("Raw data round trip",
  "Setting a raw data resource to bytes b and opening it gives len == len(b), raw[i] is the i-th byte, and raw[i:j] is b[i:j] for 0<=i<=j<=len(b).",
  "all byte strings, all indices",
  "All byte strings.",
  AB + ":set", RE + ":RawData")
p("sub_str returns the string up to the next separator",
  "raw.sub_str(i) returns the bytes from i up to (not including) the first separator at or after i.",
  "all byte strings, indices, separators",
  "Search over arbitrary data; separators may straddle.",
  RE + ":RawData.sub_str")
p("sub_str_list / sub_str_array split consecutive strings",
  "For data consisting of NUL-terminated strings, sub_str_array(i,n) returns exactly the next min(n, available) strings (n>=1), and sub_str_list(i) returns the strings up to the first empty string pair terminator.",
  "all sequences of NUL-free byte strings, all sizes",
  "Unbounded sequences.",
  RE + ":RawData.sub_str_list", RE + ":RawData.sub_str_array")
p("Instance round trip",
  "Setting an instance and opening it gives an object of length 1 whose fields (by attribute or via [0] / [-1]) are the given values; every other index raises IndexError.",
  "all structures, values, indices",
  "All values/indices.",
  AB + ":__set_instance", RE + ":Instance")
p("Empty containers read back as empty containers",
  "A resource set to an empty vector / multivector / raw data opens as an empty container of that type.",
  "all archives containing such a resource",
  "Depends on Python truthiness of container objects inside Archive._open_resource.",
  AR + ":Archive._open_resource")
p("Structure iteration follows declaration order",
  "Iterating a structure object yields field values in declaration order (as as_list does).",
  "all structures, all hash seeds",
  "Depends on set iteration order, which varies between interpreter runs.",
  ST + ":Structure.__iter__", G + "templates/py/python.jinja2")
p("Slice to numpy returns exactly the selected rows",
  "v[a:b:s].to_numpy(limit) returns the first min(limit, n) selected rows (all of them without limit).",
  "all vectors, slices, limits",
  "All limits/lengths.",
  RE + ":_VectorSlice.to_numpy")
# ---- archives ---------------------------------------------------------------------------------
p("Schema verification on open",
  "Opening an archive succeeds only if for every non-archive resource, at every nesting depth, whose schema file is present the stored schema text equals the expected one byte for byte; any difference raises SchemaMismatchError (or UnicodeDecodeError when it is not UTF-8).",
  "all storages, all archive types, arbitrary nesting of sub-archives",
  "All file contents and all nestings.",
  AR + ":Archive._schema_validated_resource_signature", AR + ":Archive._check_non_subarchive_schema")
p("Missing resources",
  "Opening fails with MissingResourceError if a non-optional resource's schema or data is absent; optional resources whose files are all absent open as None; an archive opens in no other way with resources missing.",
  "all storages and archive types",
  "All subsets of files may be missing.",
  AR + ":Archive", FS + ":FileResourceStorage.get")
p("Archive accessors reflect the storage at open time and are stable",
  "After a successful open, accessing a resource by name always returns the same object loaded at open, accessing an undefined name raises AttributeError, and opening depends only on the contents of the files the archive type mentions.",
  "all storages and access sequences",
  "Quantifies over histories and over unrelated files in storage.",
  AR + ":Archive.__getattr__")
p("End-to-end: what the builder writes the archive reader reads",
  "For every archive type (without sub-archives, distinct file names) and every valid assignment of values to all its non-optional resources, constructing a builder, setting each resource in any order, and opening the directory returns an archive in which every set resource has exactly the values set (empty containers excepted) and each unset optional resource is None.",
  "all archive types, all values, all set orders",
  "Combines all codecs and the file-level protocol for arbitrary schemas.",
  AB + ":ArchiveBuilder", AR + ":Archive", RS + ":ResourceStorage", FW + ":FileResourceWriter", FS + ":FileResourceStorage")
p("Each resource can be set at most once and unknown resources are rejected without effect",
  "Setting an undeclared resource raises UnknownResourceError and changes no file; setting a resource after a successful set raises ResourceAlreadySetError and changes no file; hence the bytes of a successfully set resource never change afterwards.",
  "all archive types and all sequences of set calls, valid or not",
  "An invariant over all histories.",
  AB + ":ArchiveBuilder.set")
p("Records are validated before any payload is written",
  "set raises MissingFieldError / UnknownFieldError / UnknownStructureError for a record with missing or extra fields or unknown structure, in which case no payload bytes of that resource reach the storage, the resource does not count as set and a later valid set succeeds with the same result as if the failed one had not happened.",
  "all values, all positions of the offending record in a vector or multivector",
  "All positions/shapes.",
  AB + ":__validate_structure_fields", AB + ":set")
p("The order of set calls does not matter",
  "For distinct resources, any two orders of successful set calls leave the same files with the same contents.",
  "all archive types, values and permutations",
  "All permutations.",
  AB + ":ArchiveBuilder.set")
p("Crash prefixes never open with wrong data",
  "If building is interrupted at any point between file-system effects, opening the directory either raises, or yields an archive in which every resource that is present has exactly the value that was being set for it.",
  "all archives, values, and all prefixes of the sequence of file-system effects",
  "All crash points.",
  AB + ":ArchiveBuilder", FW + ":FileResourceWriter", AR + ":Archive")
p("Tar and directory storages are equivalent",
  "For every directory tree packed into a tar with explicit directory entries, get and ls on the tar storage return the same bytes / names / nested storages as on the directory, at every nesting depth, with or without a './' prefix on member names.",
  "all file trees, all keys",
  "All trees.",
  TA + ":TarArchiveResourceStorage", FS + ":FileResourceStorage")
p("An archive opens identically from a directory and from a tar",
  "Opening an archive type on the directory storage and on the tar storage of the same tree gives the same result (same values or same error), when no file is empty.",
  "all archive types, all trees",
  "All trees.",
  AR + ":Archive", TA + ":TarArchiveResourceStorage", FS + ":FileResourceStorage")
p("The writer derives the archive name from the schema",
  "Writer's archive-name inference returns the name of the only archive declared in a schema and raises when several are declared.",
  "all schema texts",
  "Any schema text, including comments and identifiers containing the keyword.",
  WR + ":Writer._get_archive_name")
# ---- generator --------------------------------------------------------------------------------
p("Structure layout is gap-free, ordered and non-overlapping",
  "After tree building, the fields of every structure have offsets equal to the sum of the widths of the preceding fields; they are pairwise disjoint, ascending, and all lie within size_in_bits <= 8*size_in_bytes < size_in_bits + 8.",
  "all structure declarations",
  "Any number of fields of any widths.",
  BU + ":_compute_structure_sizes", SR + ":Structure", FI + ":Field")
p("bits_required is exact",
  "BasicType.bits_required(v) is the least width w such that v is representable in a w-bit field of that signedness (negative unsigned values raise InvalidSignError), and a value is within value_range iff bits_required(v) <= width.",
  "all integers, all basic types",
  "All integers.",
  BT + ":BasicType.bits_required", BT + ":BasicType.value_range")
p("Basic types reject widths beyond their storage",
  "BasicType construction raises InvalidWidthError iff the requested width exceeds the storage width of the type; bool is 1 bit.",
  "all type names and widths",
  "All widths.",
  BT + ":BasicType.__init__")
p("Enumerations assign unique, in-range, auto-incremented values",
  "A successfully created enumeration has pairwise distinct values, all representable in its type; a value without explicit assignment is its predecessor plus one (0 for the first); duplicates raise DuplicateEnumValueError and out-of-range values raise InvalidEnumValueError.",
  "all lists of (name, optional value), all types",
  "All lists.",
  EN + ":Enumeration.create")
p("Enumerations are total",
  "After creation every value representable in the enumeration's width has exactly one enumerator: declared ones keep name and value, the rest get a generated UNKNOWN_VALUE_ name; if that would need more than 256 + len generated values creation raises SparseEnumError.",
  "all enumerations and all representable values",
  "2^width values for each width, any list.",
  EN + ":Enumeration.create")
p("Constants fit their type and the fields that refer to them",
  "After tree building every constant's value is representable in its declared type, and every constant referenced by a field (default / optional value) has the field's type and is representable in the field's width; each field has at most one invalid value.",
  "all schemas",
  "All schemas.",
  CO + ":Constant", BU + ":_check_const_refs", BU + ":_check_ranges")
p("Dependency order and cycle detection",
  "The dependency-order traversal terminates on every graph, visits every reachable node exactly once, emits every node after all nodes it depends on, and raises CircularReferencing iff a cycle is reachable.",
  "all finite graphs",
  "All graphs.",
  TR + ":DfsTraversal.dependency_order", SY + ":SyntaxTree")
p("Name resolution picks the innermost declaration",
  "Resolving an unqualified reference yields the declaration found in the closest enclosing scope up to and including the nearest namespace; a fully qualified one resolves to exactly that path; unresolvable names raise MissingSymbol, and the resolved reference names an existing node.",
  "all trees and references",
  "All nestings.",
  RSV + ":resolve_references", NO + ":Node.find")
p("Tree paths identify nodes",
  "In any tree built by insertions no two nodes have the same path, find(path(n)) = n for every node, and insertion of a duplicate sibling name raises SymbolRedefinition leaving the tree unchanged.",
  "all trees, all insertion sequences",
  "All trees.",
  NO + ":Node.insert", NO + ":Node.find", NO + ":Node.path")
p("References survive renaming of separators",
  "A reference built from a dotted path gives back exactly that path as its target.",
  "all paths made of schema identifiers",
  "All strings.",
  RF + ":Reference._referencify", RF + ":Reference._dereferencify")
p("Maximum resource size from explicit references",
  "max_size of a resource is the minimum over all explicit references to it of 2^(width of referencing field) (64-bit fields excepted), so the index of every item of a resource of at most that size can be stored in every referencing field, and a larger resource has an item some referencing field cannot address.",
  "all sets of explicit references",
  "All schemas.",
  BU + ":_compute_max_resource_size")
p("Namespace declarations merge",
  "Declaring the same namespace several times is equivalent to one declaration containing all definitions; two definitions with the same name in the same namespace raise SymbolRedefinition.",
  "all schemas",
  "All schemas.",
  BU + ":_build_node_tree", BU + ":_merge_roots")
p("Distinct definitions get distinct generated Python names",
  "Two different structures or archives of a schema are given different class names in the generated Python module.",
  "all schemas",
  "All identifier pairs.",
  G + "generators/python.py", NO + ":Node.path_with")
p("Normalised schemas are a fixed point",
  "Rendering a schema in normal form, parsing it and rendering again gives the same text, so schema strings embedded in archives are stable under regeneration.",
  "all schemas",
  "All schemas.",
  G + "generators/flatdata.py", G + "templates/flatdata/", GR)
p("A resource's embedded schema depends only on that resource's dependencies",
  "Adding, removing or changing definitions a resource does not depend on does not change the schema text embedded for that resource; it mentions every definition it depends on.",
  "all pairs of schemas agreeing on the resource's dependencies",
  "A two-schema relational property.",
  SY + ":SyntaxTree.schema", NO + ":Node.extract_subtree", G + "generators/flatdata.py")
# ---- other languages --------------------------------------------------------------------------
p("C++ and Python agree on the bit layout",
  "For every field and buffer, the C++ Reader returns the same value as the Python reader on data the Python builder wrote, and C++ Writer output is read back identically by Python.",
  "all buffers, offsets, widths, types, representable values",
  "All values/offsets in two languages.",
  "flatdata-cpp/include/flatdata/internal/Reader.h", "flatdata-cpp/include/flatdata/internal/Writer.h", DA)
p("Rust and Python agree on the bit layout",
  "For every field and buffer in bounds, Rust's read_bytes! / write_bytes! agree with the Python reader/writer for representable values.",
  "all buffers, offsets, widths, types, representable values",
  "All values/offsets in two languages; the wrong offsets are only visible for unaligned 64-bit fields.",
  "flatdata-rs/lib/src/bytereader.rs", "flatdata-rs/lib/src/bytewriter.rs", DA)
p("Go and Python agree on the bit layout",
  "For every field and buffer in bounds the Go reader returns the value the Python reader returns.",
  "all buffers, offsets, widths, signednesses",
  "All values/offsets.",
  "flatdata-go/flatdata/reader.go", DA)
p("The C++ tar reader indexes exactly the regular files",
  "For every well-formed tar the C++ tar reader returns, for each regular file, its name, data offset and size; it rejects archives with a wrong header checksum.",
  "all tar files",
  "All byte strings.",
  "flatdata-cpp/src/TarReader.cpp")

# ---- appended while modelling -----------------------------------------------------------------
p("Reading a field past the end of the data raises",
  "Reading a field that does not lie entirely inside the data raises instead of returning a value.",
  "all buffers, offsets, widths",
  "Needs all buffer lengths and offsets; the result depends on what happens to be there.",
  DA + ":read_value")
p("Zero-width fields are harmless",
  "A field of width 0 reads as 0 and writing it changes nothing.",
  "all buffers and offsets",
  "Edge case of the bit arithmetic at every offset.",
  DA + ":read_value", DA + ":write_value")
p("Every resource of a generated Python archive is described by its own schema",
  "In the generated Python module, the schema text attached to a resource is the one rendered for that resource, for all resource names.",
  "all archives",
  "Depends on name mangling over all pairs of names (the schema constant is named after the upper-cased resource name).",
  "flatdata-generator/flatdata/generator/templates/py/python.jinja2")
p("Raw data slices like bytes",
  "raw[a:b:c] equals bytes slicing of the payload for every slice.",
  "all payloads, all start / stop / step combinations including negative and omitted ones",
  "Infinite slice space.",
  RE + ":RawData.__getitem__")
p("An unterminated substring extends to the end of the data",
  "sub_str(i) without terminator after i returns the text from i to the end of the payload.",
  "all payloads and positions",
  "All payloads.",
  RE + ":RawData.sub_str")
p("String lists work for every size and separator",
  "sub_str_array returns the requested number of strings and sub_str_list all strings, for every number, payload and separator byte.",
  "all payloads, positions, counts and separators",
  "All payloads.",
  RE + ":RawData.sub_str_array", RE + ":RawData.sub_str_list")
p("The inspector opens archives from directories and tar files alike",
  "inspector.open_archive(path) opens the archive whose signature is in the directory or tar (the only one, or the named one) with the type compiled from the stored schema; no signature, several without a name, or an unknown name raise RuntimeError.",
  "all directories, tar files, names",
  "All directory contents.",
  IN + ":open_archive")

p("Equal embedded schemas mean equal layouts",
  "If two generated modules (from any two schemas) attach the same schema text to a resource, the resource's structures have the same fields, offsets, widths, signedness and size in both, so data accepted by the schema check is decoded as it was written.",
  "all pairs of schemas, all resources",
  "A relation between all pairs of schemas.",
  "flatdata-generator/flatdata/generator/generators/flatdata.py", "flatdata-generator/flatdata/generator/templates/flatdata", "flatdata-generator/flatdata/generator/templates/py/python.jinja2")
p("The generated Python module imports and declares every definition",
  "For every accepted schema the generated Python module can be imported and then has, for every structure and archive, one class whose layout or resources are the declared ones (and a builder class per archive), and no other class.",
  "all schemas",
  "All identifiers and all dependency graphs: a name used in a class body must already be bound to the right class.",
  "flatdata-generator/flatdata/generator/generators/python.py", "flatdata-generator/flatdata/generator/templates/py/python.jinja2", "flatdata-generator/flatdata/generator/tree/traversal.py:DependencyPostOrder")
p("Generated archive classes satisfy what the library relies on",
  "For every accepted schema, the class generated for an archive can be used with the library to write any acceptable data and read it back unchanged: distinct file names, sizes, layouts and schemas are as the library requires.",
  "all schemas, all data",
  "All schemas and data; composes generator and library.",
  "flatdata-generator/flatdata/generator/templates/py/python.jinja2", "flatdata-py/flatdata/lib/archive_builder.py", "flatdata-py/flatdata/lib/archive.py")
p("A reader of another schema never misreads",
  "Data written with the builder class generated from one schema and opened with an archive class generated from any other schema (an older or newer version, or an unrelated one) is either refused with an exception, or the two archives have the same resources and layouts and every resource reads back as it was written.",
  "all pairs of schemas, all archives of both, all data, all orders of setting",
  "A relation between all pairs of schemas and all data; tests compare a few versions.",
  "flatdata-py/flatdata/lib/archive.py:Archive", "flatdata-py/flatdata/lib/archive_builder.py:ArchiveBuilder", "flatdata-generator/flatdata/generator/templates/flatdata", "flatdata-generator/flatdata/generator/templates/py/python.jinja2")

p("C++ ranges and optional values",
  "Reading a range member of a C++ structure gives the field's value in this record and in the following record; reading an optional member gives nothing exactly when the field holds the declared invalid value, and the field's value otherwise.",
  "all buffers, records, offsets, widths, types, invalid values",
  "All values and offsets.",
  "flatdata-cpp/include/flatdata/internal/Reader.h", "flatdata-generator/flatdata/generator/templates/cpp/structure.jinja2")
p("The C++ tar storage reads exactly the packed files",
  "For every well-formed tar of files with distinct paths, reading a path from the C++ tar storage, directly or through any chain of sub-directories, returns exactly that file's bytes, and reading any other path returns nothing.",
  "all tar files, all paths",
  "All byte strings and all paths.",
  "flatdata-cpp/include/flatdata/MemoryMappedTarFileStorage.h", "flatdata-cpp/include/flatdata/TarArchiveResourceStorage.h", "flatdata-cpp/src/TarReader.cpp")

p("Schema text denotes exactly the declarations written",
  "The parser accepts exactly the texts of the documented schema language (any blanks between words, comments in the permitted places) and returns exactly the declared constants, enumerations, structures, archives and their decorations; every other text is rejected with a parsing error, and no text has two meanings.",
  "all texts",
  "All character sequences, including all layouts, comments, keyword/name boundaries and literals.",
  "flatdata-generator/flatdata/generator/grammar.py", "flatdata-generator/flatdata/generator/tree/builder.py:_build_node_tree")

p("The schema tree contains exactly what was declared",
  "For every accepted schema in which no namespace lies below the path of a definition and the name _builtin is not used, the tree the generators work on contains every declared constant, structure, enumeration and archive at the path given by its namespace and name, with the declared fields, enumerators, resources and bound resources in the declared order, with the declared types, widths, values, ranges, optional marks and explicit references, every mentioned name referring to the definition it denotes; and it contains no other definition except the structures of multivector indexes.",
  "all schemas (and all schema texts), all declarations",
  "All schemas; nine passes over the tree rename, insert and re-type nodes after the declarations are created.",
  "flatdata-generator/flatdata/generator/tree/builder.py", "flatdata-generator/flatdata/generator/tree/nodes", "flatdata-generator/flatdata/generator/tree/resolver.py")

p("The generator accepts exactly the valid schemas",
  "A schema in which no namespace lies below the path of a definition and the name _builtin is not used is accepted by the generator exactly when it is valid: its declarations are valid by themselves (distinct definitions, fields, enumerators and resources; constants and enumerators that their type can hold; widths within their types; multivector indexes of at most 64 bits; nothing mentioned twice) and every mentioned name can be used where it is (it denotes a definition of the right kind; ranges have their own name, are not optional, and occur only in vectors; a constant has its field's type and fits; at most one optional value per field; explicit references start at a structure of the resource; no archive contains itself). Every valid schema passes all checks, every invalid one is refused before any code is generated.",
  "all schemas (and all schema texts)",
  "All schemas; acceptance depends on nine passes, each of which may fail for reasons that are hidden by the passes before it.",
  "flatdata-generator/flatdata/generator/tree/builder.py", "flatdata-generator/flatdata/generator/tree/nodes", "flatdata-generator/flatdata/generator/tree/resolver.py")

p("C++ resource storage: written resources, and only those, are read back",
  "Writing a resource through a C++ storage leaves exactly the size, the data and the padding in the resource's file, the schema in its schema file, and no other file changed. A resource that was not read before is returned by a read exactly if the size in its file matches the file's length and the stored schema equals the expected one (for file storages: and is not empty), and then with exactly the data of the file; reading changes no file; and the resources the Python builder leaves are read with the same payload.",
  "all storages, resource names, schemas and data",
  "All byte strings and file contents, well-formed or not.",
  "flatdata-cpp/include/flatdata/ResourceStorage.h:read_and_check_schema", "flatdata-cpp/include/flatdata/FileResourceStorage.h", "flatdata-cpp/include/flatdata/MemoryResourceStorage.h")
p("C++ external vectors leave exactly the grown elements",
  "Creating a C++ external vector, growing it element by element and closing it leaves exactly the resource with these elements in order, however often the elements were flushed on the way and for every flush limit; close returns the view of them; and the files are those the Python builder leaves for the same records.",
  "all element types, element sequences and flush limits",
  "All lengths; the flush happens once per 32 MB of data.",
  "flatdata-cpp/include/flatdata/ExternalVector.h", "flatdata-cpp/include/flatdata/internal/ResourceHandle.h")
p("C++ vectors behave as sequences of records",
  "After every sequence of grow, resize, pop_back and assignments, a C++ vector holds exactly the elements a list would, new ones being zero until assigned, and written to a storage gives exactly these elements.",
  "all element types, all sequences of operations",
  "All operation sequences.",
  "flatdata-cpp/include/flatdata/Vector.h")
p("C++ multivectors leave and show exactly the added elements",
  "Creating a C++ multivector, adding elements of any of its types to its buckets and closing it leaves the data and index resources of exactly these buckets (those the Python builder leaves), for every flush limit, as long as the data is short enough for the index; a view of these files has one entry per bucket, for_each visits exactly the elements of a bucket, in order, with their types and bytes, an iterator visits exactly those of its type; and a byte that is no type of the multivector where an element should start is reported.",
  "all buckets, elements, index widths and flush limits",
  "All lengths and bucket contents.",
  "flatdata-cpp/include/flatdata/MultiVector.h", "flatdata-cpp/include/flatdata/MultiArrayView.h")
p("C++ views show the records, and slices of views slices of records",
  "A C++ view of a file of records has exactly these records as elements (one fewer if they overlap), iterating visits the elements indexing gives, every slice (slice, slice_before, slice_after, skip, skip_last) of a view has the corresponding slice of its elements, and a slice written to a storage gives exactly its records, with the one its last element overlaps with.",
  "all record types, files, slices",
  "All lengths and positions.",
  "flatdata-cpp/include/flatdata/ArrayView.h")
p("A C++ archive object says what is in the files",
  "Opening an archive with the C++ library gives an object whose is_open says exactly whether the signature, every mandatory resource (with the expected schema, and within its size limit) and every mandatory sub-archive is there; its members are exactly the resources that are there with the contents of their files (an optional resource that is damaged or has another schema is missing, like one that does not exist), its sub-archives those that can be opened; opening changes no file and opening again gives the same; and the resources the Python builder writes are shown with the same payload.",
  "all archive schemas, file contents and directory structures",
  "All file contents and nestings of archives.",
  "flatdata-cpp/src/Archive.cpp", "flatdata-cpp/include/flatdata/Archive.h", "flatdata-generator/flatdata/generator/templates/cpp/archive.jinja2")
p("Every way of building an archive in C++ leaves exactly what was written",
  "For every sequence of calls on a C++ archive builder, its sub-archives, and its vectors and multivectors being written, interleaved in any order: every call succeeds, every finished resource has exactly the contents given to it, no other files appear; if everything mandatory is finished the archive opens and shows these contents; if the program stops at any call with a mandatory resource not finished, the archive does not open; and a builder for an archive that exists changes no file.",
  "all archive schemas, all interleavings of builder calls, every stopping point",
  "All interleavings and histories.",
  "flatdata-cpp/src/ArchiveBuilder.cpp", "flatdata-cpp/include/flatdata/ExternalVector.h", "flatdata-cpp/include/flatdata/MultiVector.h", "flatdata-generator/flatdata/generator/templates/cpp/archive.jinja2")

p("Rust resource storage: the result of a read is determined by the files",
  "Writing a resource through a Rust storage (one that has no such resource yet, or a file storage) leaves exactly the size, the data and the padding in its file, the schema in its schema file, and no other file changed: the files C++ and Python leave. Reading has exactly one result for given files: the data if the size in the file matches its length and the stored schema is the expected one, and otherwise the error (or the overflow panic) for what is wrong; reading changes no file; and what was written, by any of the three libraries, is read back.",
  "all storages, resource names, schemas and data, with and without overflow checks",
  "All byte strings and file contents, well-formed or not.",
  "flatdata-rs/lib/src/storage.rs:ResourceStorage", "flatdata-rs/lib/src/filestorage.rs", "flatdata-rs/lib/src/memstorage.rs")
p("Rust vectors leave and show exactly their elements",
  "Creating a Rust external vector, growing it element by element and closing it leaves exactly the resource with these elements in order, for every flush limit, and returns the view of them; a vector in memory holds, after every sequence of growing and changing elements, exactly the elements a list would, and its bytes are theirs; an empty sequence of overlapping structures is stored as one zeroed structure, all others as by Python; a resource opens as a slice exactly if it consists of whole structures (at least one if they overlap), and then shows them.",
  "all element types, element sequences, operations and flush limits, all file contents",
  "All lengths; the flush happens once per 32 MB of data.",
  "flatdata-rs/lib/src/vector.rs", "flatdata-rs/lib/src/arrayview.rs", "flatdata-generator/flatdata/generator/templates/rust/structure.jinja2")
p("Rust multivectors leave and show exactly the added elements, and never read outside the data",
  "Creating a Rust multivector, adding elements of any of its types to its buckets and closing it leaves the data and index resources of exactly these buckets (those C++ and Python leave), for every flush limit, as long as the data is short enough for the index; a view of these files shows these buckets. For any contents of the two files, reading a bucket gives the elements whose bytes are between its two positions, or panics: exactly if the positions are out of order or outside the data, or the bytes between them are not whole elements of the known types. Iterating from either end, and slices, give these buckets.",
  "all buckets, elements, index widths and flush limits; all contents of index and data",
  "All lengths, bucket contents and corrupted files.",
  "flatdata-rs/lib/src/multivector.rs", "flatdata-rs/lib/src/multiarrayview.rs", "flatdata-generator/flatdata/generator/templates/rust/variadic.jinja2", "flatdata-generator/flatdata/generator/templates/rust/index.jinja2")
p("Rust substrings of raw data",
  "The substring of raw data at a position is the bytes up to the next zero byte, or to the end of the data if there is none; a position behind the end panics; for a terminated string it is the one Python reads.",
  "all raw data and positions",
  "All byte strings.",
  "flatdata-rs/lib/src/rawdata.rs:RawData")

p("Rust archives: open succeeds exactly for complete archives",
  "Opening an archive with the Rust library has exactly one result for given files, and changes none: the archive with its members if the signature has the schema, every mandatory resource is there, every optional one is there or has no files at all, every size fits the type and the limit, and the same holds for the sub-archives (an optional one without signature being absent); otherwise the error of the first member that fails, or a panic if a structure is cut off. Opening again gives the same; resources the Python builder writes are shown with their payload, except an empty vector of overlapping structures, which is an error.",
  "all archive schemas, all contents of the files, all storages",
  "All combinations of missing, damaged, oversized and well-formed files at any depth.",
  "flatdata-generator/flatdata/generator/templates/rust/archive.jinja2:open", "flatdata-rs/lib/src/storage.rs:check_resource", "flatdata-rs/lib/src/storage.rs:check_optional_resource")
p("Rust archive builders: every interleaving leaves exactly what was written, and only finished archives open",
  "Any interleaving of setting resources, starting, growing and closing vectors and multivectors, and creating sub-archive builders of a Rust archive builder succeeds and leaves exactly the files of what was written and closed. If everything mandatory was and nothing was left unclosed, the archive opens with exactly these contents; if the program stops at any call with something mandatory missing or anything not closed, it does not open. A builder for an archive that exists is refused without writing anything, as is a second builder for a sub-archive.",
  "all archive schemas, all interleavings of builder calls, every stopping point, both storages, every flush limit",
  "All interleavings and histories.",
  "flatdata-generator/flatdata/generator/templates/rust/archive.jinja2", "flatdata-rs/lib/src/storage.rs:create_archive", "flatdata-rs/lib/src/vector.rs:ExternalVector", "flatdata-rs/lib/src/multivector.rs:MultiVector")
p("C++ and Rust show the same archive",
  "An archive that the Rust library opens is opened by the C++ library on the same files, and the two have the same members with the same data, recursively. Rust opens exactly the archives that C++ opens and in which nothing is damaged: each resource has a size that fits its type, or no files at all, and so for its sub-archives. Archives built with the C++ library, with everything finished, are opened by Rust with the contents given to the builder.",
  "all archive schemas, all contents of the files",
  "All file contents at any nesting depth.",
  "flatdata-generator/flatdata/generator/templates/rust/archive.jinja2", "flatdata-generator/flatdata/generator/templates/cpp/archive.jinja2", "flatdata-cpp/include/flatdata/Archive.h", "flatdata-rs/lib/src/storage.rs")

p("Go archives: opening reports exactly the unusable resources and shows the files that are there",
  "Opening an archive with the generated Go code returns an error exactly if a resource of it or of its sub-archives has files that cannot be used (data file shorter than 16 bytes, schema file missing or empty, schema different from the generated one), namely the error for the first such resource in the order of the schema; otherwise every member is there, holds the bytes of its files and is open exactly if its files exist. No signature and no mandatory resource is required. Archives that Rust opens, with lower case sub-archive names, open and show the same bytes. After Close no resource is open.",
  "every directory content, every archive schema with nested sub-archives, optional and mandatory resources of all kinds",
  "tests open a few archives; the claim covers every combination of present, missing and damaged files at every depth",
  "flatdata-go/flatdata/resource.go GetMemoryDescriptor", "flatdata-generator/flatdata/generator/templates/go/archive.jinja2 Open, Close")
p("Go vectors, slices, instances, raw data and multivectors show the stored elements",
  "For every resource file written by any of the libraries: a Go vector has as many elements as records stored and each getter of element i gives the field of record i; GetSlice(a, b, s) gives elements a, a+s, ... up to and including b; an instance shows its record; raw data returns the stored bytes; Get(i) of a multivector gives the elements of bucket i in order with their types and values, and there are as many buckets as were written.",
  "every file, record size, field layout, index, slice bounds and step, every sequence of buckets of elements of known types",
  "tests read a few fixed files; positions, wrap-around and object sharing matter for all sizes and all bucket contents",
  "flatdata-generator/flatdata/generator/templates/go/vector.jinja2", "flatdata-generator/flatdata/generator/templates/go/multivector.jinja2 Get, getBucketOffset", "flatdata-generator/flatdata/generator/templates/go/rawdata.jinja2", "flatdata-go/flatdata/reader.go Read")
p("C++ describes a schema mismatch by a shortest difference",
  "For every expected and every found schema text, the description of the mismatch is taken from a line difference that turns the expected into the found schema with the fewest added and removed lines; it shows the changed lines, up to three unchanged lines before and two after each (never an unchanged last line), and \"...\" where lines are left out. Nothing is shown if no schema was found or the schemas are equal. If the difference has a positive multiple of 64 lines the computation writes out of bounds.",
  "all pairs of texts",
  "Optimality ranges over all differences of all pairs of texts; the out-of-bounds write depends on the length.",
  "flatdata-cpp/src/Archive.cpp:compute_diff", "flatdata-cpp/src/Archive.cpp:create_context", "flatdata-cpp/src/Archive.cpp:to_lines")
p("The schemas inside generated code are the generator's texts, in every language",
  "For every accepted schema file and every structure, archive and resource, the string literal the generator puts into C++, Rust, Go and Python code is read by that language as exactly the schema text of the definition, and it ends where it should; so all languages store and compare the same schemas. The C++ literals of archives and resources and the Python literals of archives, resources and comments are right for every text (without carriage returns in Python); the raw literals of Rust, Go, C++ structures and Python structures rely on what characters schemas can have.",
  "all schema files that are accepted, all definitions and resources in them, all texts for the escaped literals",
  "Quoting has to work for every text that can be generated.",
  "flatdata-generator/flatdata/generator/generators/cpp.py:_safe_cpp_string_line", "flatdata-generator/flatdata/generator/generators/python.py:_safe_py_string_line", "flatdata-generator/flatdata/generator/templates/cpp/archive.jinja2:94-100", "flatdata-generator/flatdata/generator/templates/rust/rust.jinja2:41-45", "flatdata-generator/flatdata/generator/templates/go/archive.jinja2:136")
p("Comments of a schema stay comments in generated code",
  "Whatever a comment in a schema says, the code generated for it is a comment in Go and Python, line by line, and the documentation strings of Python classes and resources hold exactly its text. In C++ the comment ends where the schema's comment ends, unless a backslash at the end of a line inside a block comment is followed by a slash (then the rest is code). In Rust it is a comment exactly if every line of it is blank or starts with a star or a comment mark; any other line becomes code.",
  "all comment texts (block comments and line comments with continuations)",
  "Comments are arbitrary text; whether any of them escapes into code ranges over all of them.",
  "flatdata-generator/flatdata/generator/generators/rust.py:_rust_doc", "flatdata-generator/flatdata/generator/generators/go.py:to_go_doc", "flatdata-generator/flatdata/generator/generators/python.py:to_python_doc", "flatdata-generator/flatdata/generator/generators/cpp.py:cpp_doc")
p("Members, comparison and copying of generated structures",
  "In Rust every getter gives the stored value (nothing for the invalid value of an optional member), a setter changes its own member only, == holds exactly if all members are equal, fill_from copies all members and no other bit, and a range member of an element is its field and the field of the next element. C++'s == compares all bytes; the two agree on structures with equal unused bits, in particular on all structures built from new ones with setters. C++'s < holds exactly if every member is smaller: it is irreflexive, asymmetric and transitive, but not a strict weak order.",
  "all structure layouts, all contents, all sequences of setters",
  "The layouts, contents and orders of setters are unbounded.",
  "flatdata-generator/flatdata/generator/templates/rust/structure.jinja2", "flatdata-generator/flatdata/generator/templates/cpp/structure.jinja2", "flatdata-rs/lib/src/bytereader.rs", "flatdata-rs/lib/src/bytewriter.rs")
p("Reading an enumeration in Rust always gives a variant",
  "For every enumeration the generator accepts, reading a member of that type from any bytes in Rust gives one of the variants of the generated enum, never undefined behaviour; it is the variant with the stored value. Signed enumerations of one bit are the exception: a set bit is read as 1, which is no variant.",
  "all accepted enumerations, all positions, all bytes",
  "Soundness of an unsafe transmute quantifies over all bytes of all files.",
  "flatdata-generator/flatdata/generator/templates/rust/structure.jinja2:97-105", "flatdata-generator/flatdata/generator/templates/rust/enumeration.jinja2", "flatdata-generator/flatdata/generator/tree/nodes/trivial/enumeration.py:Enumeration.create")
p("Archives with sub-archives built directory by directory open with everything that was written",
  "Write an archive with its builder into a directory, and every sub-archive with the builder of its type into a subdirectory named like the resource, to any depth, with all required resources and any of the optional ones. Opening the outer archive then succeeds and shows, at every depth, every value that was set, every sub-archive that was written and None for everything else; the same from a tar of the directories.",
  "all archive types, all nestings, all storable contents, all other files in the directories",
  "Types, nesting depth and contents are unbounded.",
  "flatdata-py/flatdata/lib/archive.py", "flatdata-py/flatdata/lib/archive_builder.py", "flatdata-py/flatdata/lib/file_resource_storage.py", "flatdata-py/flatdata/lib/tar_archive_resource_storage.py")
p("Generated code in every language reads back constants and enumerators as the numbers of the schema",
  "A constant or enumerator the generator accepts is written into the Rust, C++ and Go code and into the generated schema such that the language reads that text as the same value, and as a value of the declared type. In Rust the digits are in groups of three. Exceptions: Rust has no numbers of type bool, although the generator accepts constants and enumerations of that type; C++ has no type for decimal numbers from 2^63 on in size, so such constants do not compile there.",
  "all accepted constants and enumerations",
  "The numbers range over all 64-bit values and all spellings the schema allows.",
  "flatdata-generator/flatdata/generator/generators/rust.py:_format_numeric_literal", "flatdata-generator/flatdata/generator/templates/rust/constant.jinja2", "flatdata-generator/flatdata/generator/templates/cpp/constant.jinja2", "flatdata-generator/flatdata/generator/templates/go/base.jinja2", "flatdata-generator/flatdata/generator/tree/nodes/trivial/constant.py")
p("Names in generated Rust and C++ code can be declared together",
  "Code generated for an accepted schema declares, in every scope (a structure's methods, an enumeration's variants, a module's types and constants, an archive's members, open function, builder and resource constants), names that are identifiers of the target language, are no keywords and do not clash with each other or with the names the templates add.",
  "all accepted schemas, all scopes of the generated Rust and C++ code",
  "Names are arbitrary; the generators change their case, escape some and add prefixes and suffixes, so clashes appear only for particular combinations.",
  "flatdata-generator/flatdata/generator/generators/rust.py", "flatdata-generator/flatdata/generator/generators/cpp.py", "flatdata-generator/flatdata/generator/templates/rust", "flatdata-generator/flatdata/generator/templates/cpp")
p("Generated Rust and C++ code refers to the definitions the schema meant",
  "Every reference of a structure, resource or archive in an accepted schema is to a definition of the right kind that is part of the generated code. The path written for it in Rust, read in the module of the definition that refers to it, wherever the generated code is included, names that definition and no other; so does the path in C++ from the outermost namespace. The type of a field is the basic type of the schema (same sign and width) or the enumeration meant, stored as the type the enumeration declares. Exception: in Rust a constant whose name has small letters is declared in capitals but referred to as in the schema, so the code does not compile.",
  "all accepted schemas, all references in them, all nestings of namespaces",
  "Namespaces nest to any depth and names repeat across them; the generators build paths by replacing separators in names.",
  "flatdata-generator/flatdata/generator/generators/rust.py:_fully_qualified_name", "flatdata-generator/flatdata/generator/generators/cpp.py:_cpp_base_type", "flatdata-generator/flatdata/generator/tree/nodes/node.py:path_with", "flatdata-generator/flatdata/generator/templates/rust/structure.jinja2", "flatdata-generator/flatdata/generator/templates/cpp/structure.jinja2")
p("The inspector opens the archives the generator's users write",
  "flatdata-inspector and the command line writer rebuild the archive class from the schema stored in the archive alone. For a schema with one outermost namespace the class they find is that of the archive with the name of the signature file, and nothing else is found under another name; what they open shows exactly the values, sub-archives and missing resources that were written. They are meant to open every archive that the generated module opens.",
  "all accepted schemas, all archive types, all contents, all files around them",
  "Schemas, nesting and contents are unbounded, and the schema goes through generation and parsing a second time.",
  "flatdata-generator/flatdata/generator/engine.py:Engine.render_python_module", "flatdata-generator/flatdata/generator/engine.py:Engine._find_root_namespace", "flatdata-py/flatdata/lib/inspector.py", "flatdata-py/flatdata/lib/writer.py")
p("C++ iterators over arrays are positions",
  "Iterators over an array view behave like positions in the array: adding, subtracting, incrementing, decrementing and indexing move by whole structures, the six comparisons compare positions, loops from begin to end and back visit every structure once in order, binary search finds the border in a sorted array, and the difference of two iterators is the difference of their positions. The last is false if the second iterator is the later one and structures have more than one byte.",
  "all arrays at all addresses, all structure sizes, all pairs of iterators, all offsets",
  "Addresses, sizes and offsets range over 64-bit numbers; the arithmetic mixes signed and unsigned types.",
  "flatdata-cpp/include/flatdata/internal/ArrayViewIterator.inl", "flatdata-cpp/include/flatdata/internal/ArrayView.inl")
p("Copying, hashing and creating single structures in C++",
  "copy_struct makes all fields of the destination read as in the source, the two compare equal and no byte outside the structure changes. Equal structures have the same hash, whatever the combining function. A new Struct reads as zero in every field. (Structures whose fields are all equal may still differ in bits of no field, and then in == and hash.)",
  "all structure sizes, all contents, all fields",
  "Contents and layouts are unbounded.",
  "flatdata-cpp/include/flatdata/Copy.h", "flatdata-cpp/include/flatdata/Hash.h", "flatdata-cpp/include/flatdata/Struct.h")
p("Rust reads archives from tar files as from directories",
  "For a tar of a directory tree (members in any order, with or without ./ in front, directories with or without / behind), the Rust tar storage gives, in every subdirectory, the bytes of the file of that name, exactly as the directory and as Python does, no bytes for a directory and 'not found' for everything else; an archive opens from it if and only if its files are complete, and then shows their contents. Of repeated members the last counts, a tar with a sparse member is refused as a whole, and nothing can be written.",
  "all directory trees, all orders and spellings of members, all archive types, all contents",
  "Trees, contents and the order of members are unbounded.",
  "flatdata-rs/lib/src/tarstorage.rs", "flatdata-rs/lib/src/storage.rs:ResourceStorage.read_and_check_schema")
p("Diagrams show every resource, and connect what is connected",
  "The diagram drawn for an accepted schema, in which bound resources bind only resources that are not bound themselves, has a cluster for every namespace, every archive and every resource that nothing binds, and no others; such a resource has a node for each of its structures (a bound resource has those of the resources it binds) with a port for every field, in order, and a plain node if it has no structures. There is an arrow for every explicit reference, between what stands for its two resources, and no other; every arrow starts at a port of a node, and ends at a node and a cluster, that are in the diagram. No two resources share a node if names have no underscores except leading ones. Clusters are titled with the names of what they show and note a resource's kind and whether it is optional; a node is titled with the name of its structure and lists every field with its name, the width of its type and its type: a basic type's name, or the path of an enumeration, relative to the structure's namespace. Without these conditions arrows may start nowhere, resources may be missing, no diagram may be made, different resources may be drawn as one; an enumeration's path may be cut in the middle of a namespace's name.",
  "all accepted schemas, all resources and explicit references in them",
  "Schemas are unbounded; nodes, arrows and their identifiers are written by different templates that must agree.",
  "flatdata-generator/flatdata/generator/generators/dot.py", "flatdata-generator/flatdata/generator/templates/dot/references.jinja2", "flatdata-generator/flatdata/generator/templates/dot/structure.jinja2", "flatdata-generator/flatdata/generator/templates/dot/resource.jinja2", "flatdata-generator/flatdata/generator/tree/syntax_tree.py:SyntaxTree.binding_resources_or_self")
p("The Rust build helper generates every schema into its own place, and nothing else",
  "flatdata::generate run on a folder (or on one schema) either succeeds, and then every file below it called *.flatdata was accepted by the generator and its generated code is in the same relative place below the output folder, with the extension rs; or reports something called *.flatdata that is not a file, is not accepted, or whose output cannot be written - the earlier output of that schema is then still there. In every case schemas and all other files stay as they are, only directories on the way to outputs are made, and no two schemas share an output. It does succeed when everything called *.flatdata is an accepted file and nothing is in the way of the outputs. (A folder called *.flatdata makes it fail.)",
  "every folder tree, order of walking it, output folder, earlier content of the output folder, and generator",
  "tests run the helper on one folder with well-formed schemas", "flatdata-rs/lib/src/generator.rs:generate", "flatdata-generator/flatdata/generator/app.py:_run")
p("The order of declarations is irrelevant",
  "Two schemas with the same definitions in the same namespaces, written in any order and grouped into namespace declarations in any way, are both accepted or both refused, and if accepted define the same things: every definition is at the same path with the same fields, types, values and resources, and every structure has the same size and the same offset, width and sign for every field.",
  "all pairs of schemas with the same definitions per namespace",
  "All schemas and all permutations; references, multivector indices and constants cross the declarations.",
  "flatdata-generator/flatdata/generator/tree/builder.py:_build_node_tree", "flatdata-generator/flatdata/generator/tree/builder.py:build_ast", "flatdata-generator/flatdata/generator/tree/resolver.py:resolve_references")
p("The iteration order of sets is irrelevant",
  "Whether a schema is accepted, and what it is taken for, does not depend on the order in which Python iterates the set of an enumeration's values: with any two orders the generator gets the same tree, or refuses with the same error; only if several values of one enumeration do not fit may a different one of them be named.",
  "all schemas and texts, all pairs of iteration orders",
  "Tests run with the one order of one interpreter.",
  "flatdata-generator/flatdata/generator/tree/nodes/trivial/enumeration.py:Enumeration.create", "flatdata-generator/flatdata/generator/tree/builder.py:build_ast")
here = os.path.dirname(os.path.abspath(__file__))
with open(os.path.join(here, "..", "properties.jsonl"), "w") as f:
    for x in P:
        f.write(json.dumps(x) + "\n")
print(len(P))
