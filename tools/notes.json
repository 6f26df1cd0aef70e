{
 "C01": [
  "proved",
  ""
 ],
 "C02": [
  "proved",
  ""
 ],
 "C03": [
  "proved",
  ""
 ],
 "C04": [
  "proved",
  "all integers, so both the signed and the unsigned reading of a word"
 ],
 "C05": [
  "proved",
  "C macros evaluated in wrapping 64-bit arithmetic"
 ],
 "C06": [
  "proved",
  "integer formats; floats are the same bytes as unsigned integers, their values: C73"
 ],
 "C07": [
  "proved",
  ""
 ],
 "C08": [
  "proved",
  "arbitrary padding bytes and following bytes"
 ],
 "C09": [
  "proved",
  "an object is never returned; the exception is ValueError except for messages whose segments are all empty (C09_valueerror_refuted)"
 ],
 "C10": [
  "proved",
  "both directions: trailing bytes are refused, and whatever loads() accepts is exactly one frame"
 ],
 "C11": [
  "proved",
  ""
 ],
 "C12": [
  "proved",
  "reads with n >= 0; the transport returns b'' only at the end"
 ],
 "C13": [
  "proved",
  ""
 ],
 "C14": [
  "proved",
  "for successful sends; a failed sendall is C14_failed_flush_refuted"
 ],
 "C15": [
  "proved",
  "against an independent semantics in the segmented address space"
 ],
 "C16": [
  "proved",
  "every getter, list items, and the copy"
 ],
 "C49": [
  "proved",
  ""
 ],
 "C17": [
  "proved",
  "limits of the pure-Python builder are a hypothesis, shown necessary by C17_big_list_refuted"
 ],
 "C18": [
  "proved",
  "for any source bytes and pointer, well-formed or hostile"
 ],
 "C19": [
  "proved",
  "every object reachable from a loaded message of at most 2^32 bytes is aligned"
 ],
 "C20": [
  "proved",
  "compact() and the generated constructors (Cls(..) and new_foo) for arguments without empty structs and unused words, the constructors for calls that fill the pointers in slot order; refuted for empty child structs, for struct lists with unused words, and for a union whose members share a pointer with a later field in between"
 ],
 "C21": [
  "proved",
  "the returned objects are equal, bytes included"
 ],
 "C22": [
  "proved",
  "objects without unused words in struct lists; refuted with them"
 ],
 "C23": [
  "proved",
  "with the two exceptions of the fast path, both refuted"
 ],
 "C24": [
  "proved",
  ""
 ],
 "C25": [
  "proved",
  "well-formed objects; refuted for cyclic messages"
 ],
 "C27": [
  "proved",
  "object padding, missing sections and larger sections, at any depth; queries whose types fit the data"
 ],
 "C28": [
  "proved",
  "all access chains of the query language; an object has one value"
 ],
 "C35": [
  "proved",
  "for lists whose items can all be read; malformed lists: C35_malformed_refuted"
 ],
 "C37": [
  "proved",
  "two capnpy lists in the canonical layout: True iff equal values (soundness also for any compact layout); comparison with Python lists, by Python's == of the items, for every layout and nesting; refuted for padding garbage, for lists that are not compact, and for floats (two capnpy lists compare the bytes: nan equal to itself, 0.0 and -0.0 differ): C37_*_refuted; identity of inner item types (lists of lists): C71"
 ],
 "C43": [
  "proved",
  "pickle and marshal themselves are assumed faithful on tuples of bytes and ints"
 ],
 "C44": [
  "proved",
  "predicates for direct pointers, accessors for all pointers; behind far pointers the predicates always say no (proved, and refuted as a property), is_struct() is true for null (refuted)"
 ],
 "C38": [
  "proved",
  "Python 3.8+ hashes; the hash of a stretch of bytes that ends outside of the buffer is C38_strhash_overread_refuted (unreachable from well-formed messages: C38_hash_data)"
 ],
 "C39": [
  "proved",
  "keys of None, ints, bools, floats (as dyadic rationals, inf, nan), bytes, text, lists, nested keyed structs and tuples; null unicode texts hash differently in the compiled mode: C39_null_unicode_hash_refuted; lists in keys: C39_list_hash_refuted"
 ],
 "C40": [
  "proved",
  "non-negative values and values below -len; wire values >= 0x8000 are C40_wire_negative_refuted, a member called `name` is C40_member_called_name_refuted"
 ],
 "C41": [
  "proved",
  "the mutation of extra_annotations by has_annotation is not modelled"
 ],
 "C42": [
  "proved",
  "ASCII identifiers; injectivity fails: C42_injective_refuted"
 ],
 "C47": [
  "proved",
  "the exit status part is refuted in full generality: C47_decode_refuted, C47_decode_cut"
 ],
 "C48": [
  "proved",
  "readline: C48_adapter_readline_refuted, for every file"
 ],
 "C26": [
  "proved",
  "in-bounds histories of writes, allocations, texts and deep copies; C longs unbounded, PyByteArray_Resize never fails"
 ],
 "C46": [
  "proved",
  "Python: any bytes; compiled: any source without the two hostile shapes (C46_compiled_tame, C46_compiled_dumps), which are refuted (heap overflow, dirty memory, out-of-bounds read); compiled copies read far pointers with the compiled reader: on a landing pad outside of the buffer they make an empty struct where Python raises IndexError (C46_far_outside_refuted)"
 ],
 "C29": [
  "proved",
  "pure-Python mode; C29_constructor covers every kind of field at any depth of groups; the hypotheses on names and defaults are necessary: C29_*_refuted"
 ],
 "C30": [
  "proved",
  "values True/False (or 0/1); any other int is C30_non_bool_refuted"
 ],
 "C31": [
  "proved",
  "struct arguments: word-aligned objects within the copy limits (C17); AnyPointer: C31_anypointer_refuted"
 ],
 "C32": [
  "proved",
  "name clashes: C32_anonymous_refuted, C32_new_foo_nested_refuted"
 ],
 "C33": [
  "proved",
  "convert_case=False: C33_convert_case_refuted; name clash: C33_name_clash_refuted"
 ],
 "C34": [
  "proved",
  "has: objects with a value; get: any bytes; members of unions: C34_union_refuted"
 ],
 "C36": [
  "proved",
  "lists of bool refused: C36_bool_list_refuted; None in a list of lists: C36_nested_none_refuted"
 ],
 "C45": [
  "proved",
  "the names of the constructor's parameters; clashes of local variables are C29_group_name_clash_refuted"
 ],
 "C50": [
  "proved",
  "for class bodies without clashes (no_clash, each clause shown necessary); the clashes are refuted by C50_property_refuted, C50_clashes_refuted"
 ],
 "C51": [
  "proved",
  "for annotations at the top of the file; refuted otherwise (C51_annotation_refuted) and for keywords (C51_keyword_refuted)"
 ],
 "C52": [
  "proved",
  "failure condition exact"
 ],
 "C53": [
  "proved",
  "loading in Python mode: exact condition; in pyx mode: sufficient condition; the rest refuted by C53_cycle_refuted, C53_options_refuted, C53_names_refuted"
 ],
 "C54": [
  "proved",
  "for the histories described by plain; each other kind of history refuted by C54_stale_refuted"
 ],
 "C55": [
  "proved",
  "for values that have the shape the schema says; reading back for clean values, the others refuted by C55_roundtrip_refuted, C55_total_refuted, C55_unknown_tag_refuted"
 ],
 "C56": [
  "proved",
  "exact for texts (iff), all bytes for data"
 ],
 "C57": [
  "proved",
  "CPython 3 strict codec"
 ],
 "C58": [
  "proved",
  "agreement wherever the pure library answers; the differences elsewhere are exact (differ, C58_which) and witnessed by the _refuted theorems"
 ],
 "C59": [
  "proved",
  "messages below 2 GiB; both directions; what is accepted wrongly: C59_truncated_refuted, C59_file_refuted, C59_root_refuted"
 ],
 "C60": [
  "proved",
  "capability pointers: C60_capability_refuted"
 ],
 "C61": [
  "proved",
  "whole files without Cython (C61_constants_of_a_file); single constants in both modes (C61_constant). What does not work: the _refuted theorems"
 ],
 "C62": [
  "proved",
  "both modes; nested imports without Cython: C62_nested_import_refuted"
 ],
 "C63": [
  "proved",
  "the text of any object in both modes; whole files without Cython"
 ],
 "C64": [
  "proved",
  "upgrade and downgrade refuted for all lists; what works is proved; buffers above 1 MiB: C64_upgrade_reads_neighbours"
 ],
 "C65": [
  "proved",
  "reflection: all sequences of calls; compiler: all histories. Building the ModuleGenerator is a parameter (its result or its exception)."
 ],
 "C66": [
  "proved",
  "union members and hash clashes: C66_union_members_refuted, C66_hash_dependent_refuted. Copying the schema fields into the new node is taken as the identity (see C18, C29)."
 ],
 "C67": [
  "proved",
  "overflow near 2^31, swallowed errors and negative offsets are separate theorems (_refuted, C67_unpack_typed). Floats: as unsigned integers of the same size."
 ],
 "C68": [
  "proved",
  "docopt and setuptools themselves are not modelled; the schema's versionCheck: C68_schema_version_check_refuted."
 ],
 "C69": [
  "proved",
  "C69_special_refuted (special methods of Python 3 only), C69_neighbour_refuted. CPython's attribute cache is not modelled."
 ],
 "C70": [
  "proved",
  "objects are addresses handed out by an allocator; the list itself is read as in C35."
 ],
 "C71": [
  "proved",
  "the exact set of element types is `shared`; the failing side is C71_lists_of_lists_refuted."
 ],
 "C72": [
  "proved",
  "constants (C62), $Py.group (C66) and imports (C52) are other properties; C72_nullable_union_refuted: accepted, never readable; C72_exact excludes groups as flags (Example C72_group_flag)."
 ],
 "C73": [
  "proved",
  "pure-Python mode; IEEE binary64/binary32 and CPython's conversions are modelled on bit patterns (FloatBits.v, tested against CPython on 1200 values); the payload of a nan is not. C73_int_to_float32_refuted: double rounding."
 ],
 "C74": [
  "proved",
  "the statements of the generated constructor (Ctor.v) executed with the compiled builder (BuilderC.v) and the compiled _copy_list.py/_copy_pointer.py; C integers of the pointer arithmetic as in C05/C70; the items of a capnpy List given as argument are read as in pure-Python mode; the conversion of a Python float to a C integer is a parameter (it depends on the version of Cython). Differences: C74_*_refuted."
 ],
 "C75": [
  "proved",
  "pure-Python mode with assertions enabled (compiled mode: C70, C71); the UnicodeDecodeError of a Text field read as unicode is a ValueError, not modelled; the recursion limit is the error OutOfFuel. No bound on time or memory: C75_len_refuted, C75_blowup_refuted."
 ],
 "C76": [
  "proved",
  "pure-Python mode (by C74 the compiled constructors build the same object); lists of structs and of lists are covered by C76_copy when the call is accepted, C76_accepts is for voids, numbers, texts."
 ],
 "C77": [
  "proved",
  "pure-Python mode; $Py.group and $Py.key and the computation of options are in C51/C52/C56 and not repeated here: convert_case is given by node and field. C77_schema_layouts and C77_schema_text are about the 20 classes of schema.py and annotate.py, whose text is extracted by tools/gen_schemapy.py."
 ],
 "C78": [
  "proved",
  "The colours (pypytools, not part of the repository) and the texts of doubles are parameters; the colour codes of addresses are assumed to have the same length, and the columns are aligned accordingly. Python 3. Lines printed before an exception are not kept."
 ],
 "C79": [
  "proved",
  "The processes, the existing directories, the generator with loads() (see C77, C68, C61) and the C compiler are parameters. packaging.version.Version is not part of the repository: releases N.N...N and N.N...N-dev are modelled after PEP 440, other version texts are a parameter. A crash while the output is written is not modelled here (C54 has it for distutils)."
 ],
 "C80": [
  "proved",
  "PySyntax.v and PyRun.v specify the part of Python that the generated code uses (tokens, logical lines and indentation, expressions, assignments, if, return, raise, def with decorators), independently of capnpy; GenRun.v gives the methods of the runtime by the functions of the model. Names of fields are Python identifiers (see C61 for how they are chosen) and no method hides a method of Struct (hypothesis keeps). str() of floats is a parameter, its text must be that of a float literal with the same bits. Text fields with the unicode option (the same text with _read_text_unicode) and the pyx variants are not covered here."
 ],
 "C81": [
  "proved",
  "C81_init, C81_new_union, C81_group: a call of the text read as Python is the call of the model of the constructor (C29, C31, C32 say what that does), for any positional and keyword arguments; C81_roundtrip puts both together with the text of the properties. Hypotheses: names are Python identifiers other than keywords, the parameters of one function are distinct, self (and cls, in a struct with a union) is not the name of a field, names of classes refer to the classes they are meant to. C81_group_none_refuted and C81_float_inf_refuted: schemas whose text cannot be loaded."
 ],
 "C82": [
  "proved",
  "One hypothesis, from_text (the body of the class contains what is read from its text), instead of one per method as in C80 and C81. C82_same_name_refuted: hasX and x. The model of the text was compared with all 36 classes of schema.py and annotate.py, word for word, by vm_compute (ClassSamples.schema_texts; SchemaText.v is written by tools/gen_schematext.py). shortrepr, the constants of the class and the methods of $Py.key are not part of the text; they may define other names."
 ],
 "C83": [
  "proved",
  "The text is read with the grammar of C80 and run by GenRun; C83_key compares it with key_tuple, the direct model of C18 and C50. Keys of structs, AnyPointers and groups are outside (the value of the model for them is not an item of a tuple). Refuted: C83_no_fields_refuted (`$Py.key('*')` without fields is a SyntaxError), C83_nullable_key_refuted (AttributeError from obj.key)."
 ],
 "C84": [
  "proved",
  "C84_reads: the text is read with the grammar of C80. C84_shortrepr: run by ReprRun, it is Repr.shortrepr. The accessors obj.x, get_x, has_x and is_x are those of the model (their own text is C80), lists and floats are printed by the functions of Repr.v; no two accessors of a class may have the same name (x :Text and getX would). schema_reprs compares the model of the text with the 36 classes of schema.py and annotate.py word for word."
 ],
 "C85": [
  "proved",
  "C85_reads: the text of the module, read with a grammar of class statements, imports and assignments on top of that of C80-C84. C85_runs: what the statements do (PyModuleRun.v: namespaces of modules and classes, fill_enum, __extend__, item types); holds and constant_is (ModuleSpec.v) say what each node must have. C85_version: the check of the version. Outside: imports of other schemas, interfaces, reflection data in several segments, an _extended module, constants whose values are calls (structs, enums: their text is C61). C85_schema, C85_annotate: the same of the texts of capnpy/schema.py and annotate.py, word for word. Refuted: an enum without members is a SyntaxError (C85_empty_enum_refuted); a nested type G is hidden by the constructor of a group g (C85_hidden_type_refuted)."
 ]
}