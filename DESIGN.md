# Formal model of capnpy in Rocq (Coq 8.16.1)

## Layout

| path | content |
|---|---|
| `properties.jsonl` | the properties, in API terms (generated by `tools/gen_properties.py`) |
| `rocq/theories/Base.v` | bytes, little-endian numbers, Python slices, exceptions as values |
| `rocq/theories/Spec.v` | the independent specification: wire format of pointers, the schema-less value of an object (`value`, `den`), the segmented address space, stream framing |
| `rocq/theories/*.v` (`Ptr`, `Segment`, `Builder`, `Copy`, ...) | the model, function by function, each definition citing the file and lines it models |
| `rocq/theories/*Facts.v` | lemmas and proofs |
| `rocq/theories/Properties_*.v` | only the property theorems, each closed by `exact lemma`, with `Print Assumptions`, plus the non-vacuity Examples |
| `MANIFEST.json` | property -> theorems |
| `seeded/LOG.jsonl` | mutation log |

## Modelling conventions

* Python `int` is `Z` (unbounded). Bytes are `Coq.Init.Byte.byte`; `bytes`/`bytearray` are `list byte`; lengths and offsets are `Z` so that negative and huge offsets are expressible.
* Exceptions are values: `res A := Ok a | Err e` with `e` one of `IndexError`, `ValueError`, `EOFError`, `AssertionError`, `TypeError`, `StructError`, ... Recursion that Python does not bound (copy_pointer, endof, load_all, loops over a transport) uses explicit fuel and a distinct error `OutOfFuel`; theorems either exclude it or prove that some fuel suffices.
* A mutating method returns the new state.
* Primary model: the pure-Python code. The Cython/C variants (`ptr.h`, `builder.pyx`, `base.pyx`, `_hash.pyx`) are modelled separately, with explicit 64-bit wrap-around and explicit out-of-bounds memory faults, and proved to agree with it where they do.
* `struct.pack_into`/`unpack_from`, slicing, slice assignment, `list.find`, `pickle` and `marshal` themselves are CPython: their documented semantics is written down in `Base.v` and trusted.
* Python 2/3 differences: modelled for Python 3.

## The specification

`Spec.v` gives pointers by arithmetic (`div`/`mod` on the unsigned 64-bit word; no bit operations), and the *value* of an object as an inductive tree

    value ::= VNull | VStruct data pointers | VList tag count body | VPtrList items | VComp ds ps items ...

with an inductive relation `den seg p pos v`: "the pointer word `p`, located at byte `pos` of the (possibly multi-segment) buffer `seg`, denotes `v`". `den` follows far pointers (both kinds of landing pads). It says nothing about order, gaps or sharing. Most theorems about copying, compacting, dumping and loading are stated with `den` on both sides.

Far pointers are additionally specified against the *segmented* address space (a list of segments), and the flat representation used by the code is related to it.

## Plan per property

C01-C04 pointers: bit-operation model in `Ptr.v`, arithmetic spec; proof by `Z.land_ones`, `Z.shiftr_div_pow2`, disjoint `lor` = `+`.
C05 C macros: the second half of `Ptr.v` evaluates each macro with C `long` arithmetic (wrap to signed 64 bits); equal to `Ptr.v`.
C06, C07 packing: generic `pack_into`/`unpack_from` over (width, signedness); list update lemmas.
C08-C11 framing: `Message.v`, generic over a reader; spec: `frame segs` bytes.
C12, C13 streams: simulation between `BufferedStream` over an arbitrary list of chunks and an ideal stream; `load` is parametric in the reader, so it transfers.
C14 socket: induction over the history.
C15, C16 far pointers: flat-vs-segmented relation.
C17-C21, C25 copy: canonical encoding `enc v` (pointers are relative, so position-independent); theorem: the copy appends exactly `enc v` and writes one pointer; the rest are corollaries. C20 is refuted for empty child structs and proved otherwise; for constructors (CtorCompact.v): the stores are recorded in the order they happen (`shape`), stores in slot order build the canonical encoding from left to right.
C22 endof: if `endof` answers `e`, then everything reachable lies in `[start,e)`, and any other buffer with these bytes at any position has the same value.
C23, C24 dumps/loads: from C17/C22 and C08. Refuted for an empty root struct on the fast path.
C26 Cython builder: refinement (capacity, end, memory) -> list of bytes.
C27, C28 struct reads: reads as functions of the value.
C29-C34, C36, C45 constructors and getters: `Ctor.v` models the code generator (`fieldtree.py`, `structor.py`) as a function from field descriptions to a list of statements, and Python's execution of these statements over an environment of local variables; `CtorSpec.v` is the specification (layouts, argument values, reading back), without mention of statements. Proof: every statement of a field writes only the region of the field (`CtorStore.v`, `CtorSlots.v`), the regions are disjoint, induction over nested groups (`CtorFacts.v`), the error paths separately (`CtorErr.v`).
C35-C37 lists. C38 hash arithmetic. C39 keys. C40 enums. C41 options. C42 camel case (regex substitution modelled as the leftmost non-overlapping scan). C43 pickling. C44 AnyPointer. C45 duplicate names. C46-C48 refutations with the exact extent of the damage. C46 for hostile sources: `CopySafe.v`, induction on the recursion depth with an invariant of the compiled builder, over the pointers that the copy can find (`visits`).
C50, C51 names: a class body is a list of bindings executed in order (`Names.v`), the module a dictionary; the theorem lists all pairs of names that must differ.
C52, C53 load_schema: a world (files, cache, module objects, `sys.modules`), fuel for nested imports; invariant of the cache over histories; `loadable` is the inductive specification.
C54 distutils: a state machine with mtimes, invariant over histories.
C55, C56 shortrepr: the generated method and the `item_repr` methods over buffers (`Repr.v`); specification (`ReprSpec.v`): the tree of what is shown of a value, its printing, and a schema-driven reader of the capnp text format; simulation (`ReprFacts.v`), then printing and reading are inverse on `clean` trees (`ReprParse.v`). Float printing is a parameter.
C57 UTF-8: CPython's strict codec written out; decode and encode are mutual inverses.
C58-C60 the compiled library: the same Python sources read again with the C types and `except` clauses of the .pxd files (`CRead.v`, `CLoad.v`): 64-bit and 32-bit wrap-around, unchecked memory (`MemFault`), exceptions ignored by functions without an `except` clause (Cython 0.29), SystemError when a function returns its `except` value. Proof: function by function, with ranges, then induction over walks (C58), transfer between readers (C59), induction over fuel (C60).

C61-C63 constants, item types, reflection data: the text capnpy writes (`Const.v`), a reader of Python expressions and their evaluation, written from the language reference (`PyExpr.v`), and an execution of the statements of a module with class bodies and global names (`ConstSpec.v`). Proof: printing and reading are inverse (`PyExprFacts.v`), each text denotes its object (`ConstFacts.v`), then induction over the declarations with an invariant on the globals (`ConstModule.v`). Not modelled here: pyx-mode execution of a whole module, fields and methods of the classes (Names.v has the names), repr() of floats (a parameter; assumed to be a literal for finite ones).

C64 list evolution: the existing model of lists, read with an item type of another kind than the layout; proved for every well-formed object.

C65 annotations: `Annot.v` (the dictionary of registered annotations with its aliasing, the lazy reflection object); induction over the history, with an invariant that describes the stored list.

C66 keys and groups: `PyGroup.v` (the text of the annotation, the classes made for groups, getters from `Ctor.v`); a relation between texts and lists of names that does not mention strip or split.

C67 packing: `Packing.v` (packing.pyx with 32-bit offsets, unchecked memory accesses, swallowed exceptions; the rest of packing.py); exact comparison in every range of offsets.

C68 options: `OptDict.v` (Options objects as their eight bytes, from_dict, combine, parse_argv, header of the module, import with the version check); values read back through the getters.

C69 extensions: `Extend.v` (classes as dictionary plus type slots; module files by path as in `Loader.v`); induction over the class body and over the search path.

C70 item types at run time, C71 identity of item types: `ItemT.v` (types.py objects, item type objects with their addresses, ItemType.from_type, the objects made by generated getters, get_type); induction over types.

C72 acceptance: `Accept.v` (the exceptions of the emitting functions in order, over schemas as trees); induction over groups and nested declarations; exactness against a list of problems.

C73 floats: `FloatBits.v` (bit patterns of binary32/binary64, conversions with rounding on integers), `FloatSpec.v` (numbers as integers times 2^-1074, "nearest"); proof that the rounding gives the nearest (`FloatFacts.v`), then through constructors, getters and lists.

C74 compiled constructors: `CCopyList.v` runs the same generated statements (`Ctor.v`) on the compiled builder; every lemma on the pure constructor (`CtorSlots`, `CtorFacts`, `CtorErr`, `CtorFinal`, `CtorCall`) carries the simulation by the compiled one (relation `Rc` of `BuilderCFacts.v`; list copies through the strict builder, `CopyListStrict.v`).

C75 hostile input: no new model; every reading function is shown to raise only the listed exceptions (a syntactic walk over the models), the bytes read are shown to be a part of the input by an invariant of all reachable handles (`reached`); copy and endof by induction on fuel. Counterexamples to resource bounds: a void list, and a family of messages with exponentially large values.

C76 lists as arguments: the model of the constructors (Ctor.v, CopyList.v) with `PList` arguments; iteration over a List gives its items (ListFacts), and the copying loop writes them (CopyListFacts), so the list read back agrees item by item; induction on the item type.

C77 reading the schema: `SchemaPy.v` has the layouts and constructor texts of schema.py and annotate.py (written by tools/gen_schemapy.py from the text of the two files); `SchemaMsg.v` models the accesses of the compiler to the request; `SchemaSpec.v` says, with the offsets of the official schema.capnp, which values are requests and which layout a class is to have; mutual induction on the layout (`SchemaFacts.v`), and by induction on the recursion limit for the converse (`SchemaConv.v`). `LayoutCheck.v` decides `layout_ok`, `ShowCtor.v` prints the statements of `Ctor.v` as structor.py does.

C78 dump: `Printer.v` models printer.py, `PrinterSpec.v` says what a line without colours shows in terms of the pointer fields of `Spec.v`; `PrinterFacts.v` follows the visible text through the escapes; that a line determines its word is proved from the specification alone.

C79 running capnp: `Driver.v` models BaseCompiler and StandaloneCompiler over an environment of processes, returning the result, the files and the commands run; `DriverSpec.v` gives version texts and their order (first differing number, missing numbers zero). Proof: the printed version is parsed back, comparison of tuples without trailing zeros is that order; case analysis for commands and files.

C80 generated text: `GenText.v` models the text that field.py and structor.py write, line by line. `PySyntax.v` is a lexer and parser for the part of Python used (a specification; reading is deterministic, proved in `PySyntaxFacts.v`), `PyRun.v` an interpreter for it over any runtime, `GenRun.v` the runtime with the objects of capnpy. `PyPrint.v`: printed expressions and blocks are read back; `GenTextFacts.v`, `GenGet.v`, `GenGet2.v`: the statements read from each text, and running them equals the model of the accessor (`Ctor.v`). `TextSamples.v`: a whole class read and run.

C81 text of constructors: `GenNew*.v`. The statements read from the text of __new are related to the statements of `Ctor.v` by simulation (the variables of Python's frame are those of the model's environment, the builder is part of the state); `Properties_TextNew.v` adds the binding of arguments; `TextNewSamples.v` applies each theorem to the class of `CtorSamples.v`.

C82 whole class: `ClassText.v` puts the texts of C80 and C81 together in the order of `emit_definition`; `ClassSpec.v` lists the names of the methods of a class; `ClassFacts.v`: the body read from the text defines exactly these names, so the last definition of each (which is what Python keeps) is the one that C80 or C81 speaks of. `SchemaText.v`, generated from /repo/capnpy/schema.py and annotate.py, is the text of 36 classes; `ClassSamples.v` checks that the model writes it word for word.

C83 text of `_key`: `KeyText.v` writes the lines of `_emit_key_maybe`; they are read with `PySyntax` and run with `GenRun`, and the tuple is compared with `key_tuple` of the direct model. Two refutations: no fields (`return (,)`), and a nullable group `key` behind the method `_key`.

C84 text of `shortrepr()`: `ReprText.v` writes the lines of `_emit_repr`; the grammar has `[]`, `%`, `and`/`or`, double-quoted strings, a condition on two lines and a one-line `if`; `ReprRun.v` is a second runtime (values of getters, a list of parts), and the result is compared with `Repr.shortrepr` by induction on the depth of the calls.

C85 text of a module: `ModuleText.v` writes the header, the declarations and the definitions of a tree of nodes, with the class texts of C82-C84 inside; `PyModule.v` is the grammar of modules, `PyModuleRun.v` runs statements (a namespace per module and class, a heap of classes; `fill_enum`, `__extend__`, item types and the version check as capnpy defines them); by induction over the nodes in the order of declaration: after the declarations each class exists, after the definitions each struct has its attributes, later statements change neither. `ModuleSpec.v` is the specification (conditions on names; what must hold afterwards). Not modelled: imports of other schemas, interfaces, reflection data in several segments, `_extended` modules, evaluation of expressions other than literals, names, tuples and item types. The two modules of /repo that the compiler generated for itself, capnpy/schema.py and capnpy/annotate.py, are compared word for word with the texts of the model (`SchemaModule.v` from `tools/gen_schemamodule.py`), and C85_schema and C85_annotate are C85_runs of them, the hypotheses decided by computation.

## Not expressible / not modelled

The printing of floats (a parameter of the models of shortrepr and constants) and payloads of nans, the Cython compiler and the C compiler, Python's object model (descriptors, `__extend__`), the text of those parts of the generated code which C80 does not list (their meaning is modelled, not their printing), PyPy JIT hints, performance, the schema compiler front-end (`capnp` executable).

## Files

| files | model of |
|---|---|
| `Base`, `BaseFacts` | Python bytes, slices, `struct.pack_into`/`unpack_from`, exceptions |
| `Spec`, `Query`, `Enc` | specification: pointer words, values (`den`), reads of a value, canonical encoding |
| `Ptr`, `PtrFacts` | `ptr.pyx`/`ptr.py`, `ptr.h` (C macros with wrap-around) |
| `Segment`, `SegmentFacts` | `segment/segment.py`, `segment/base.py` |
| `Builder`, `BuilderC`, `BuilderSim`, `BuilderOps`, `BuilderCFacts` | `segment/builder.py`, `segment/builder.pyx` |
| `Copy`, `CopyFacts`, `CopyFrame`, `CopyStrict`, `CopyFinal`, `CopyList*`, `CopySafe` | `segment/_copy_pointer.py`, `segment/_copy_list.py` |
| `Endof*` | `segment/endof.py` |
| `Struct`, `ObjFacts`, `DumpFacts`, `AlignFacts`, `StructFacts` | `struct_.py`, `message.py:dumps` |
| `Message`, `Stream`, `Msg*`, ... | `message.py`, `buffered.py`, `tcp.py` |
| `List`, `EqPy`, `AnyPtr`, `Hash`, `Key`, `Case`, `Enum`, `Options`, `Decode` | `list.py`, `anypointer.py`, `_hash.pyx`, `_hash_cpython.c`, key/hash emission, `convert_case.py`, `enum.py`, `annotate_extended.py`, `__main__.py`, `filelike.py` |
| `Ctor`, `CtorSpec`, `CtorStore`, `CtorSlots`, `CtorFacts`, `CtorErr`, `CtorFinal`, `CtorCall`, `CtorProps` | `compiler/fieldtree.py`, `compiler/structor.py`, `compiler/field.py`, `compiler/struct_.py` (constructors and getters as generated) |
| `Loader`, `LoaderFacts`, `LoaderFacts2` | `compiler/compiler.py:DynamicCompiler`, import part of `compiler/request.py`, `register_import`; `py.path` |
| `Dist` | `compiler/compiler.py:DistutilsCompiler` |
| `Names`, `NamesFacts` | the names bound by `compiler/struct_.py`, `field.py`, `node.py`, `enum.py` |
| `Utf8`, `Repr`, `ReprSpec`, `ReprFacts`, `ReprParse` | `util.py` (texts and data), `compiler/struct_.py:_emit_repr`, `list.py` (shortrepr, item_repr) |
| `CRead*`, `CLoad*`, `CEndofFacts`, `CDumpFacts` | `segment/base.pyx`, `segment.pxd`, `endof.pxd`, `struct_.pxd`, `list.pxd`, `message.pxd`, `buffered.pxd` with their .py files |
| `PyExpr*`, `Const*` | `compiler/node.py` 65-190, `compiler/module.py` 194-218, `compiler/misc.py`, `compiler/request.py` 95-165 (statements and text), `compiler/struct_.py` 25-100, `compiler/enum.py` 14-25 |
| `Annot` | `compiler/module.py` 25-95 (annotation dictionaries), `reflection.py` 13-75; building the generator (options, groups) is a parameter |
| `PyGroup` | `compiler/struct_.py` 31-41, 274-304, `compiler/module.py` 97-118, `schema_extended.py` 170-208, `annotate_extended.py` 29-34 |
| `Packing` | `packing.pyx`, `packing.py` |
| `OptDict` | `annotate.py` (Options), `annotate_extended.py` 36-96, `__main__.py` 29-51, `compiler/distutils.py` 15-29, `compiler/module.py` 33, `compiler/request.py` 91-103, `util.py:check_version` |
| `Extend` | `util.py` 14-74, `_util.pyx`, `compiler/request.py` 122-126 |
| `ItemT` | `list.py` 105-160, 181-412 (constructors, get_type), `type.py`, `anypointer.py` 44-55, `compiler/field.py:_emit_list` |
| `Accept` | `compiler/field.py` 13-57, 224-237, `compiler/struct_.py` 25-95, 151-204, 274-305, `compiler/structor.py` 20-149, `compiler/fieldtree.py`, `annotate_extended.py` 7-25, `schema_extended.py` 17-30, 133-161, `compiler/node.py` 92-102, `compiler/request.py` 105-116 (exceptions only) |
| `FloatBits`, `FloatSpec`, `FloatFacts` | CPython's conversions int -> float -> C float -> float, used by `segment/builder.py` 49-53 and `packing.py` 24-28 |
| `CCopyList`, `CopyListStrict` | `segment/_copy_list.py`, `compiler/structor.py` as compiled (PYX mode) with `segment/builder.pyx` |
| `SchemaPy`, `ShowCtor`, `LayoutCheck` | `schema.py`, `annotate.py` (layouts and `__new`), `compiler/structor.py` (text) |
| `SchemaMsg`, `SchemaSpec`, `SchemaFacts`, `SchemaConv`, `SchemaSample` | `schema_extended.py`, `compiler/module.py:collect_nodes`, `compiler/fieldtree.py`, `compiler/misc.py:list_item_type`, `annotate_extended.py:nullable.check` |
| `Printer`, `PrinterSpec`, `PrinterFacts` | `printer.py`, `blob.py:_print_buf` |
| `Driver`, `DriverSpec` | `compiler/compiler.py` 41-137, 270-296, `compiler/util.py`, `__main__.py` 73-85 |
| `GenText`, `GenRun`, `TextSpec`, `GenTextFacts`, `GenTextRun`, `GenGet*`, `TextSamples` | text written by `compiler/field.py`, `compiler/structor.py`, `compiler/struct_.py` 143-204 |
| `GenNew*`, `TextNewSamples` | text of `compiler/structor.py` 33-205, `compiler/struct_.py` 151-204, `compiler/field.py` 253-274, run as Python |
| `ClassText`, `ClassSpec`, `ClassFacts`, `SchemaText`, `ClassSamples` | `compiler/struct_.py` 55-204 (text of a class, without header, shortrepr and key) |
| `KeyText`, `KeySamples` | `compiler/struct_.py` 274-304 (text of `_key`; not the hash of C75) |
| `ReprText`, `ReprRun`, `SchemaRepr`, `ReprTextSamples` | `compiler/struct_.py` 206-272 (text of `shortrepr`, pure-Python mode), `list.py` 98-100, `util.py` 90-114 as functions of the runtime |
| `ModuleText`, `ModuleTextFacts`, `ModuleRead`, `ModuleSpec`, `PyModule`, `PyModuleFacts`, `PyModuleRun`, `ModuleRunFacts`, `ModuleRun2`-`7`, `ModuleSamples`, `SchemaModule`, `ModuleSchema`, `ModuleSchema2` | `compiler/request.py` 22-160, `compiler/struct_.py` 25-130, `compiler/enum.py` 14-25, `compiler/module.py` 166-186, `compiler/node.py` 75-176 (text of a module, pure-Python mode); `enum.py` `fill_enum`, `util.py` `extend`, `check_version` as statements of the runtime |
| `PySyntax`, `PySyntaxFacts`, `PyRun`, `PyPrint` | specification: a part of Python's grammar and semantics |
| `Samples`, `CtorSamples` | concrete messages, schemas and calls for the non-vacuity examples |
| `Properties_*` | the property theorems |

## Disagreements found between the code and the properties

Each is a theorem `Cxx_..._refuted` with a concrete witness (or for all inputs of a kind). The property texts say where they hold.

* Streams and messages: a flush that fails loses or repeats data (C14); a file cut in the padding of the header is accepted (C09); a struct without data and pointers as root does not survive `dumps`/`loads` on the fast path (C23).
* Copy: an empty child struct makes objects that are not compact, as does a union member that shares its pointer slot with an earlier field (C20); `endof` accepts slack (C22); lists of 2^28 items or more cannot be copied (C17); cyclic messages overflow the stack (C25).
* Compiled builder: a hostile struct list makes `copy_pointer` write outside of its allocation, dirty spare memory, negative offsets read outside of the buffer (C46).
* Lists: equality depends on padding and on the place of texts (C37); a list with a bad item stops iteration (C35).
* AnyPointer through far pointers, and null ones (C44).
* Hashes: `strhash` may read after the end of the buffer (C38); null unicode text as a key; without Cython a List in a key hashes by the address of a new object, so that an object has a new hash each time (C39).
* Enums: wire values from 0x8000 are negative; a member called `name` (C40). Names: the camel-case conversion is not injective (C42).
* Command line: `decode` ends with an uncaught EOFError; a cut file looks complete (C47). `filelike` adapter: `readline` returns a method (C48).
* Constructors: a float field with an explicit default can be neither written nor read (C29); fields called `pos` and `builder` (C29); local variables of groups and nullables clash with fields `group_x`, `x_value` (C29, C33); ints other than 0/1 for a bool set neighbouring bits (C30); AnyPointer fields make the constructor unusable (C31); a group called `anonymous` (C32); `new_foo` and same-named members of nested unions (C32); nullable with `convert_case` off (C33); `has_foo`/`get_foo` of texts do not check the union (C34); lists of bool, None inside of nested lists (C36); groups with void fields only give a module with a syntax error (C45).
* Generated names: a field `property` followed by another field gives a TypeError at import; `x :Text` and `getX`, group `point` and nested `Point`, nullable `key` with `$Py.key`, nullable `seg` hide one another (C50); nested annotations overwrite one another; group `none`, struct `None` are syntax errors (C51).
* Imports: two imported files of the same base name give an AttributeError (`self.filenames` does not exist); `foo-bar.capnp` a SyntaxError (C52). Cyclic and relative imports never load; options and mode are ignored for cached files and not passed on to imports; pyx mode: importing a file of the same base name gives a KeyError, a user's module `foo_tmp` is removed from `sys.modules` (C53). distutils: the mtime check misses changed options, imported files, restored mtimes and interrupted compilations (C54).
* shortrepr: not what `capnp` reads for enum members with a converted name, lists of enums, unknown enum values and AnyPointers; raises for null items of text lists, for lists of Data, for Text that is not UTF-8 and, always, for unions with a nullable member (C55); backslashes and newlines of texts are not escaped (C56).
* Constants (C61, C62): a float constant inf or nan is a NameError at import; a list constant without reflection data cannot be compiled (NotImplementedError); a list constant nested in a struct whose items are a struct completed later (the enclosing one included) is a NameError at import; a struct with `includeReflectionData = true` in a file without it: NameError; a nested declaration hides a global class of the same name, so that the constant has the wrong class; enum constants are plain ints, Text constants bytes whatever textType says; without Cython, a list of a struct nested in a struct of an imported file is an AttributeError at import; a file with an interface cannot be compiled.
* Compiled library: pointers that lead outside of the message are None, an empty list or 0 instead of IndexError, because `read_ptr`, `_read_fast_ptr`, `_read_int16` have no `except` clause; `which()` gives SystemError for the tag 65535 (`except -1`); the bound check overflows near 2^63 (C58). Message sizes are 32-bit ints: headers that promise 4 GiB more than there is are accepted, from a file any header between 2 and 4 GiB takes the rest of the file (C59). `endof` ignores assertions: capability pointers (C60).

* List evolution (C64): scalar or pointer lists read as structs fail, struct lists read as scalars are shifted by the tag word.
* Constructors (C29): a field named `self`, or a field named `cls` in a struct with a union, makes the generated module a SyntaxError (duplicate argument).
* Annotations (C65): `has_annotation` extends the registered list in place; with two registrations for an entity the answer depends on earlier queries (the compiler makes only one).
* $Py.group (C66): a member of the union of the struct cannot be read through the group (TypeError); group ids are made with hash(), so a schema may fail to compile in one run and not in the next.
* packing.pyx (C67): the bound check overflows for the last offsets before 2^31 (reads and writes outside of the buffer); `unpack_int64`, `unpack_int16`, `unpack_uint32` return 0 instead of IndexError (no `except` clause); negative offsets and the exception for values out of range differ between the versions.
* Options (C68): `versionCheck` in the schema's own `$Py.options` is ignored.
* Extensions (C69): the list of special methods in `_util.pyx` is that of Python 2: `__bool__`, `__next__`, `__matmul__`, ... of a Cython class are accepted without effect; the extension of a standalone module is the first on `sys.path`, not the one next to the module.
* Lists of lists (C71): `x.f == x.f` is False for a field `List(List(Int32))` without Cython (the inner item types are compared by identity), and for some types with Cython.
* Compile-time checks (C72): `nullable.check` calls `error()` without its argument (TypeError) when the group does not have two fields; a Void field in a nullable group is an IndexError, an interface field a TypeError from `struct.calcsize(None)`, an interface declaration an AssertionError; a nullable group that is a union is accepted but its getter always raises.
* Floats (C37, C73): two capnpy lists of floats are compared by their bytes, so a list with nan equals itself and lists with 0.0 and -0.0 differ, unlike the comparison with a Python list; a float too large for Float32 is silently stored as inf; an int given for a Float32 field is rounded twice.
* Compiled constructors (C74): memory corruption when an item given for a list of structs has larger sections than the schema of the list (an object read from a message of a newer schema); truthiness of non-bools with a default of True; fields named `pos`/`builder` do not compile.
* Hostile messages (C75): `len()` of a list of voids and the size of `compact()`/`dumps()` are not bounded by the message (464 bytes can give 4 GB); a root pointer to before the buffer is accepted by `loads()`.
* Dump (C78): the header goes to stdout whatever the stream; `human=False` raises AttributeError on Python 3. Command line (C79): `capnpy compile name.py` overwrites its input.
* `$Py.key` (C83): `$Py.key("*")` on a struct without fields writes `return (,)`, a SyntaxError at import; a nullable group `key` in a struct with `$Py.key` raises AttributeError when read.

## Assumptions

`Print Assumptions` says "Closed under the global context" under every theorem of every `Properties_*.v` file (the build prints it). No axiom is used by any theorem. The gate lists seven axioms of `Coq.ssr.ssrunder` (`Under_rel.*`): these are in the standard library's module type implementation loaded by tactics, and nothing depends on them.

## Trusted base

Coq's kernel (with `vm_compute` for closed witnesses); the reading of the code (each definition cites its source); `Spec.v` and the property statements. No axioms: `Print Assumptions` says "Closed under the global context" for every theorem.
