#!/usr/bin/env python3
"""Source of /verif/MANIFEST.json (run: python3 tools/manifest.py).  Theorem names are collected from the Props_*.v files by
their Cnn_ prefix; status and note per property are below."""
import json, os, re, glob
here = os.path.dirname(os.path.abspath(__file__))
th = {}
for f in sorted(glob.glob(os.path.join(here, "../rocq/theories/Props_*.v"))):
    for m in re.finditer(r"^Theorem (C(\d\d\d?)_\w+)", open(f).read(), re.M):
        th.setdefault("C" + m.group(2), []).append(m.group(1))
NOTES = {
"C01": ("proved", "Exact value of every in-bounds field, read as int (multi-bit) or bool-like (1 bit)."),
"C02": ("partial", "False for unsigned 64-bit fields at bit offsets not divisible by 8 (refuted with a witness); proved for all other offsets."),
"C03": ("partial", "write then read is proved for all layouts except signed 1-bit fields (refuted: -1 reads back as 1)."),
"C04": ("proved", "Values out of range wrap modulo 2^width (exact result)."),
"C05": ("partial", "Refuted in general (writing OR-s into the buffer / clears only part); exact effect of a write is proved for every buffer."),
"C06": ("proved", ""), "C07": ("proved", "In-bounds never raise, out-of-bounds writes always raise IndexError."),
"C08": ("partial", "Proved for all layouts without an unaligned u64 that shares its last byte with a later field; refuted for those."),
"C09": ("partial", "Proved without unaligned u64 fields; refuted with them."),
"C10": ("proved", ""), "C11": ("proved", ""), "C12": ("proved", ""), "C13": ("proved", ""),
"C14": ("partial", "The checks that exist are proved; truncated files are refuted to be rejected."),
"C15": ("proved", ""),
"C16": ("partial", "Overflow of byte-sized indexes raises; refuted for index widths that are not a whole number of bytes."),
"C17": ("partial", "Refuted for negative indexes; proved for non-negative ones."),
"C18": ("proved", ""), "C19": ("proved", ""), "C20": ("proved", ""), "C21": ("proved", ""),
"C22": ("partial", "Refuted at archive level for every archive (empty containers become None); proved below the archive object."),
"C23": ("partial", "Refuted (iteration order is that of a set); proved up to permutation."),
"C24": ("partial", "numpy conversion modelled for fields up to 64 bits; refuted beyond."),
"C25": ("partial", "Proved at every nesting depth for non-empty stored schemas, with the exact exception; refuted for empty schema files in tars. Index schemas are never checked (proved)."),
"C26": ("partial", "Required resources, exact errors and absent optional ones proved; refuted for optional multivectors lacking only their data."),
"C27": ("proved", ""), "C28": ("proved", "All archive types without sub-archives (the Python builder cannot write sub-archives)."),
"C29": ("proved", "For archive types whose resources have distinct files; a counterexample is given for types where they coincide."),
"C30": ("proved", ""), "C31": ("proved", ""),
"C32": ("proved", "Crash between file-system effects, any calls valid or not; torn writes and finish after a failed set are refuted separately."),
"C33": ("proved", ""), "C34": ("proved", "Empty files excluded as in the property; shown necessary."),
"C35": ("partial", "Holds when the letters 'archive' occur once; refuted otherwise."),
"C36": ("proved", "For every accepted schema, with and without enumeration-typed fields."),
"C37": ("proved", ""), "C38": ("proved", ""),
"C39": ("proved", "Literals as parsed by the grammar; a negative value in an unsigned enumeration raises InvalidSignError instead of InvalidEnumValueError; for every order in which Python iterates the set of values."),
"C40": ("proved", "A declared enumerator using a generated UNKNOWN_VALUE_ name raises SymbolRedefinition."),
"C41": ("proved", ""),
"C43": ("proved", "Every reference of every accepted schema; and what a MissingSymbol error means."),
"C44": ("proved", "Any tree made by creating, inserting and renaming nodes; and the tree of every accepted schema."),
"C45": ("proved", "Schema identifiers never contain '@'; shown necessary."),
"C46": ("partial", "Exact minimum proved; addressability holds for unsigned referencing fields, refuted for signed ones."),
"C47": ("partial", "Refuted when a definition has the path of a namespace (acceptance then depends on how definitions are spread, and the error may be an assertion). Otherwise proved for whole schemas: the declarations are valid in both or neither (C47_declarations), both are accepted or both refused (C47_accepts), every definition of every declaration is in both finished trees at the same path with the same contents (C47_contents), and equal paths raise SymbolRedefinition if every definition is fine by itself (C47_duplicates)."),
"C42": ("proved", "Any graph; node identity is Python object identity."),
"C55": ("partial", "Refuted; the exact behaviour is proved: IndexError for single bits and for fields crossing into an extra byte, otherwise the missing bytes read as zeros."),
"C56": ("partial", "Refuted off byte boundaries (always raises) and at offset 0 (clears the first byte); proved at every other byte boundary."),
"C58": ("partial", "Refuted for omitted bounds and negative positions; proved for explicit bounds inside the data and every step, with the exact result for an omitted start or stop."),
"C59": ("partial", "Refuted; the exact behaviour is proved: only the byte at the position is decoded."),
"C60": ("partial", "Refuted for size 0, separators of several bytes and lists ending with an empty string; proved for every number (0 and negative numbers return all strings) and separator byte."),
"C48": ("partial", "Refuted in general (underscores in names; an archive's builder and a neighbour named like it); proved for names without underscores."),
"C57": ("partial", "Refuted for resources whose names differ only in case; proved when names are distinct in capitals and do not start with an underscore."),
"C49": ("partial", "Proved for all schema texts without dotted namespaces: every embedded text and the whole rendering are again schema texts, and parse to exactly the declarations of the definitions they are about, one block each, in normal form (absolute names, explicit widths). The full fixed point is refuted by six accepted schemas (C49_refuted): texts that the generator itself rejects, or renders differently."),
"C50": ("partial", "Independence and contents proved for all pairs of schemas that do not nest definitions in definitions and do not use the name _builtin (an archive counts constants unused by structures among its dependencies, as the code does); refuted in the literal reading for archive resources, whose text lists such constants of the whole schema."),
"C63": ("partial", "Refuted for namespaces starting with an underscore; proved for all schemas with distinct class names, plain namespace and resource names, no name _builtin, and no definition whose path is (part of) a namespace's path."),
"C64": ("partial", "Proved end to end (declarations -> generated class -> builder -> files -> opened archive), with sub-archives to any depth (C64_nested_partial), under conditions on names and layouts that C63, C57, C06/C08 and C28 show necessary; refuted for a resource named like a multivector's index."),
"C62": ("partial", "Proved for all pairs of schemas (archive level, resource level, and for the classes of the generated modules) that do not nest definitions in definitions, do not use the name _builtin and do not refer to the generator's own index structures; refuted without the last condition: vector<.n._builtin.multivector.IndexType8> and <...IndexType16> embed the same text."),
"C65": ("partial", "Proved with sub-archives to any depth (C65_nested_partial) under the conditions of C62 and C64; refuted without the condition on index structures (values 1, 2 written as 8-bit read back as one 16-bit value 513)."),
"C51": ("partial", "The C++ reader is exact for every field and buffer; records written by either side read back in the other and have the same bytes. Refuted for unaligned unsigned 64-bit fields sharing their last byte (Python returns foreign bits) and for negative enumeration values (the C++ writer destroys neighbouring fields)."),
"C52": ("partial", "Proved for every field that spans at most 8 bytes or starts in the structure's first byte; refuted otherwise (both macros use a wrong byte for the ninth byte)."),
"C53": ("partial", "Proved for every field followed by at least one more bit of data, except signed 1-bit fields and signed fields inside a byte that do not start it; refuted for those and for a field ending with the last byte of the data."),
"C66": ("proved", "The buffer holds the following record and 8 bytes of padding, as the format prescribes."),
"C54": ("partial", "Proved for all well-formed tars whose regular files have no POSIX prefix field, whose long names belong to files and whose numbers end in NUL; each exception is refuted with a witness. Wrong checksums, other member types and odd lengths are proved to be rejected anywhere; termination is proved except for sizes near 2^64, where one header makes the reader loop for ever (proved)."),
"C67": ("partial", "Proved for the tars of C54 with distinct paths; refuted for repeated paths (the first member wins; Python's reader takes the last, C33_last_wins)."),
"C68": ("proved", "Both directions, against a declarative grammar (GrammarSpec.v) over lexemes and their spelling; texts are unbounded. Documentation comments are dropped."),
"C69": ("proved", "For schemas that keep definitions and namespaces apart and do not use the name _builtin, as the property says (C69_inside shows the first condition is needed); C69_text starts from schema text. The maximum sizes and documentation of resources are not part of the statement (C42 has the sizes)."),
"C70": ("proved", "An equivalence: acceptance iff declarations_valid (over the parsed declarations) and names_valid (over the tree of declarations, where scopes are defined); C70_declarations shows the tree of declarations exists exactly when declarations_valid holds, C70_text starts from schema text, C70_rules breaks and repairs each rule. Same two conditions on schemas as C69."),
"C71": ("proved", "Both C++ storages (file, memory) as parameters of one model; writing streams as the code does (size placeholder, data, seek back, size, padding). C71_stale and C71_empty_schema show why the statement speaks of resources not read before and of non-empty schemas."),
"C72": ("proved", "C72_files for every flush limit and element type; C72_python relates it to payload_of/set_files of the Python builder via C51."),
"C73": ("partial", "Refuted in full (C73_refuted): a new element after pop_back/resize starts with the removed element's bytes; an empty vector of overlapping elements is written as one element. Proved for histories without removal, for histories in which every new element is assigned completely, and for writing all other vectors."),
"C74": ("proved", "C74_files/C74_python/C74_open/C74_view/C74_unknown; C74_overflow shows what happens when the stated bound on the data is broken."),
"C75": ("proved", ""),
"C76": ("proved", "C76_open with C76_unique determines the result of opening completely from the files. C76_instance_size_unchecked records that the size of an instance resource is not checked."),
"C77": ("proved", "For storages that start an empty stream for a new name (both C++ storages). The calls range over all those of the generated builders; resource contents are arbitrary. Hypotheses of the calls: a resource is written once and no two resources share a file (C74_overflow shows what happens to data longer than the index can say)."),
"C78": ("proved", "Both Rust storages as parameters of one model, overflow checks on or off. C78_read with C78_unique determines the result from the files. C78_rewrite_memory (the memory storage appends when a resource is written again), C78_stale and C78_overflow show why the statement has its conditions. A missing schema file is reported as an I/O error."),
"C79": ("proved", "C79_empty_refuted records what the statement excepts: Rust stores the empty sequence of overlapping structures as one zeroed structure and cannot open the empty resource Python leaves for it; and that elements written through the spare element are those a later grow returns. C79_python requires fields whose bits lie within 8 bytes (C52)."),
"C80": ("proved", "C80_safe is an equivalence for arbitrary index and data contents; C80_overflow shows what happens when the stated bound on the data is broken."),
"C81": ("proved", ""),
"C82": ("proved", "C82_instance shows each kind of failure."),
"C83": ("proved", "Concrete session with interleaved calls in C83_instance."),
"C84": ("proved", "C84_iff is an equivalence; C84_differences lists concrete archives that only C++ opens."),
"C85": ("proved", "C85_open is an equivalence for success and for each error; C85_empty: an empty directory opens; C85_instance shows a sub-archive with capitals not being found."),
"C86": ("partial", "Vectors, slices, instances and raw data proved. Refuted for multivectors: the generated code has one object per type, so all elements of a type in a bucket show the last one (C86_refuted, exact behaviour in C86_multivector_partial), and GetSize is one too many; sentinels of range vectors are counted as elements (C86_range_counted)."),
"C87": ("partial", "Proved for differences whose number of lines is not a positive multiple of 64 (optimality of the difference for all texts); for the others the out-of-bounds write is proved (C87_description_partial, C87_refuted)."),
"C88": ("proved", "Trigraphs (off in the GNU dialects and since C++17) and characters beyond one byte are not modelled."),
"C89": ("partial", "Go and Python proved for all comments. Rust: characterised exactly (C89_rust_partial, an iff), refuted by a block comment without stars (C89_rust_refuted). C++: proved for comments without joined lines inside block comments, refuted otherwise (C89_cpp_refuted)."),
"C90": ("partial", "Rust: for fields within 64 bits of the byte they start in or starting in the first byte (elsewhere the accessors are wrong, C52_refuted); ranges likewise. Full agreement of Rust's and C++'s == refuted by unused bits (C90_equal_refuted); C++'s < is no strict weak order (C90_less_refuted)."),
"C91": ("partial", "All enumerations but signed ones of one bit (C91_refuted), at the positions the Rust accessor handles (C52)."),
"C92": ("proved", "By induction over the nesting. The builder class has no support for sub-archives, so the user makes the builders of the subdirectories; directories only, or a tar of them without empty files."),
"C93": ("partial", "Go and the generated schema: all constants. Rust: all but type bool (refuted: does not compile). C++: exactly the numbers below 2^63 in size (refuted for the others). Readers of numbers of the three languages are specified in NumberSpec.v from the language references. Enumerations do not exist in Go."),
"C94": ("partial", "Refuted in full (C94_rust_refuted, C94_cpp_refuted: accepted schemas whose code cannot compile). The partial theorems give, scope by scope, conditions on the names of the schema under which all declared names are distinct identifiers and no keywords; C94_instance meets them all with one schema text."),
"C95": ("partial", "Types and enumerations in Rust and everything in C++ proved. Rust constants: proved for names in capitals (C95_rust_constants_partial); refuted for names with small letters (C95_rust_refuted), which are declared in capitals but referred to with the schema's spelling. No namespace or definition may be called `super` in Rust. Which references each template writes is not modelled, only the functions that make the paths."),
"C96": ("partial", "Proved: archives of the only outermost namespace are found by name, and only they (C96_finds_partial, C96_only_partial, for schemas with distinct generated class names); with two outermost namespaces, or only namespaces mentioning builtin, every name is refused (C96_ambiguous, C96_no_root); an archive the inspector opens shows what was written, for undotted namespaces and distinct class names on both sides (C96_shows_partial). That every archive the generated module opens is also opened by the inspector is false: C96_refuted has five small schemas (types or constants of another namespace, a namespace mentioning builtin, nested namespaces, two constants in one field)."),
"C97": ("partial", "Proved: moves, comparisons, loops in both directions and binary search (C97_moves, C97_compares, C97_loops, C97_lower_bound); the distance to an earlier or the same iterator (C97_distance_partial). The distance to a later iterator is 2^64 divided by the structure size, minus the positions between (C97_distance_behind): right only for structures of one byte, so the full statement is false (C97_distance_refuted). Moving a pointer outside its array is modelled as arithmetic modulo 2^64."),
"C98": ("proved", "C98_hash_refuted shows the reading that is not promised: equal fields do not imply equal hashes, as bits of no field count."),
"C99": ("proved", "The members are those reported by the tar crate, which is trusted; its errors are not modelled. A member [a/../b] and the like is covered by C99_last_wins and C99_sparse only. C99_store connects the storage with the model of opening archives (C82)."),
"C100": ("proved", "The conditions are in the statement; C100_refuted shows what happens without them. C100_single_fields: every schema text meets the condition of C100_connected on explicit references. C100_labels: titles, notes and rows; C100_labels_refuted: an enumeration of a namespace whose name starts like the structure's is shown with its name cut. Colours and fonts are not claimed."),
"C101": ("proved", "For any generator given as a function of the schema text. Symbolic links, permissions, and the installation of the generator are not modelled; the walk finds what was there before the helper started. C101_refuted: a folder called like a schema, or like the output of the schema next to it, makes the helper fail."),
"C103": ("proved", "For all schemas, accepted or not. Everything the generator writes is a function of the tree, so it is covered too."),
"C102": ("partial", "For schemas whose definitions are not called like a namespace and that do not use the name _builtin (without the first it is refuted, C47_refuted); the order of the fields of a structure, the values of an enumeration and the resources of an archive is part of the definition. C102_text*: for texts, whatever the order of sets; C102_layout: sizes, offsets, widths and signs of all structures agree."),
"C61": ("partial", "Directories proved; tar files refuted (AttributeError for every tar)."),
}
claims = []
for pid in sorted(set(th) | set(NOTES)):
    st, note = NOTES[pid]
    if not th.get(pid): raise SystemExit("no theorem for " + pid)
    claims.append(dict(property=pid, status=st, theorems=th[pid], note=note))
json.dump({"claims": claims}, open(os.path.join(here, "../MANIFEST.json"), "w"), indent=1)
props = [json.loads(l)["id"] for l in open(os.path.join(here, "../properties.jsonl"))]
print(len(claims), "claims; missing:", [x for x in props if x not in th])
