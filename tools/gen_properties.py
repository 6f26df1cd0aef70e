#!/usr/bin/env python3
"""Regenerates /verif/properties.jsonl (plain data, one tuple per property)."""
import json, os
P = []
def prop(id, title, statement, quantifier, why, anchors):
    P.append(dict(id=id, title=title, statement=statement, quantifier=quantifier,
                  why_tests_cant=why, anchors=anchors))

prop("C01", "Struct pointers round-trip",
 "For every signed 30-bit word offset and every pair of 16-bit section sizes, a pointer built by ptr.new_struct is recognised as a struct pointer and its offset, data size and pointer-section size read back exactly as given; nothing leaks from one field into another.",
 "all offsets in [-2^29, 2^29), all data sizes and pointer counts in [0, 2^16)",
 "the input space is 2^62 and the bugs live at sign/mask boundaries; a finite table of literals covers none of the interior",
 ["capnpy/ptr.py:new_struct", "capnpy/ptr.py:offset", "capnpy/ptr.py:struct_data_size", "capnpy/ptr.py:struct_ptrs_size", "capnpy/ptr.py:kind"])
prop("C02", "List pointers round-trip",
 "For every signed 30-bit word offset, element-size tag 0..7 and 29-bit item count, a pointer built by ptr.new_list is recognised as a list pointer and offset, tag and count read back exactly.",
 "all offsets in [-2^29, 2^29), all tags in [0,8), all counts in [0, 2^29)",
 "2^62 combinations with masks and shifts",
 ["capnpy/ptr.py:new_list", "capnpy/ptr.py:list_size_tag", "capnpy/ptr.py:list_item_count"])
prop("C03", "Far pointers round-trip",
 "For every landing-pad bit, 29-bit offset and 32-bit segment id, a pointer built by ptr.new_far is recognised as a far pointer and the three components read back exactly.",
 "all landing pads in {0,1}, offsets in [0,2^29), segment ids in [0,2^32)",
 "2^62 combinations",
 ["capnpy/ptr.py:new_far", "capnpy/ptr.py:far_landing_pad", "capnpy/ptr.py:far_offset", "capnpy/ptr.py:far_target"])
prop("C04", "Pointer words are decoded without loss, whatever their sign",
 "Every 64-bit word, read either as a signed or as an unsigned integer, decodes to the fields given by the Cap'n Proto layout; decoded fields are always in their documented ranges; rebuilding the pointer from its decoded fields gives the same 64-bit word.",
 "all 2^64 words, signed (read_int64) and unsigned views",
 "2^64 inputs; Python's arithmetic shift on negative ints is the typical silent mistake",
 ["capnpy/ptr.py:kind", "capnpy/ptr.py:offset", "capnpy/ptr.py:extra", "capnpy/ptr.py:new_generic", "capnpy/ptr.py:deref"])
prop("C05", "The C pointer macros and the pure-Python pointer functions agree",
 "On every 64-bit word and on every in-range argument, each macro of ptr.h evaluated in wrapping 64-bit C arithmetic gives the same result as the function of ptr.py with the same name (modulo 2^64 for constructors), so PYX and pure-Python builds read the same message in the same way; the item length tables of the two versions agree too.",
 "all 64-bit words, all in-range constructor arguments, all size tags",
 "equality of two implementations over 2^64 inputs",
 ["capnpy/ptr.h", "capnpy/ptr.pyx:list_item_length", "capnpy/ptr.py"])
prop("C06", "A primitive written is the primitive read back, and only its bytes change",
 "For each integer type of the API (int8..uint64), writing a representable value at an in-bounds position of a SegmentBuilder and then reading the same type at the same position of the resulting buffer gives the value back, and every byte outside the written field is unchanged; a value outside the type's range is rejected and changes nothing.",
 "all buffers, all positions, all values, all eight integer formats",
 "unbounded buffers and positions, 2^64 values",
 ["capnpy/segment/builder.py:SegmentBuilder.write_*", "capnpy/segment/base.py:BaseSegment.read_*", "capnpy/packing.py:pack_into"])
prop("C07", "Primitive reads never go outside the buffer",
 "Reading a primitive at any integer offset (negative or huge included) of any buffer raises IndexError exactly when one of the bytes of the primitive would be outside the buffer, and otherwise returns the little-endian number made of exactly those bytes; the result is always in the range of the type.",
 "all buffers, all integer offsets, all integer formats",
 "unbounded offsets and buffers; the failure mode is an out-of-bounds read",
 ["capnpy/segment/base.py:BaseSegment.read_primitive", "capnpy/packing.py:unpack_primitive"])
prop("C08", "Stream framing is decoded exactly",
 "Loading the standard stream framing of any list of segments (one or many) yields a buffer which is the concatenation of the segments and a segment table in which entry k is the byte position where segment k starts, whether or not the header needs padding.",
 "all non-empty lists of word-aligned segments (up to 2^32 segments of up to 2^32 words), all following bytes",
 "unbounded numbers and sizes of segments, including empty ones; padding parity",
 ["capnpy/message.py:_load_message", "capnpy/message.py:_load_buffer_single_segment", "capnpy/message.py:_load_buffer_multiple_segments"])
prop("C09", "A truncated message is never accepted",
 "load()/loads() on a strict prefix of a well-framed message always raises: EOFError exactly when the prefix is empty, ValueError otherwise. It never returns an object.",
 "all well-framed messages and all their strict prefixes (every crash point of the writer)",
 "every cut point of every message",
 ["capnpy/message.py:load", "capnpy/message.py:_load_message"])
prop("C10", "loads() accepts exactly one message",
 "If a byte string is a well-framed message followed by at least one extra byte, loads() raises ValueError; if loads() succeeds, the whole string was consumed.",
 "all messages, all non-empty suffixes",
 "arbitrary suffixes",
 ["capnpy/message.py:loads"])
prop("C11", "load_all() yields every message of a stream, in order, and nothing else",
 "On a stream made of any number of well-framed messages one after the other, load_all() yields exactly the objects load() would give for each of them separately, in order, and stops without error; if the stream is cut in the middle of a message, the complete messages are yielded first and then ValueError is raised.",
 "all finite sequences of messages, all cut points",
 "unbounded histories of messages",
 ["capnpy/message.py:load_all"])
prop("C12", "Buffered readers are indistinguishable from an ideal byte stream",
 "For any way the transport splits the data into chunks, and for any sequence of read(n), read() and readline() calls, BufferedStream (hence BufferedSocket) returns exactly what the same calls would return on the plain concatenation of the chunks; likewise for StringBuffer.",
 "all chunkings, all sequences of calls",
 "exponentially many chunkings (schedules) times unbounded call histories",
 ["capnpy/buffered.py:BufferedStream", "capnpy/buffered.py:StringBuffer"])
prop("C13", "Loading from a socket does not depend on packet boundaries and does not over-consume",
 "load() from a BufferedStream gives the same object or the same exception as load() from a plain string with the same bytes, whatever the chunking, and after a successful load the stream is positioned exactly at the first byte after the message.",
 "all byte sequences, all chunkings",
 "all schedules of the transport",
 ["capnpy/message.py:load", "capnpy/buffered.py:BufferedStream.read"])
prop("C14", "BufferedSocket sends what was written, once, in order",
 "For any sequence of write() and flush() calls whose sends succeed, the bytes given to the socket are the concatenation of everything written before the last flush(), in order, each byte exactly once, and nothing is sent before flush(). (If sendall() fails half-way, a later flush sends the whole buffer again.)",
 "all histories of write/flush",
 "unbounded histories",
 ["capnpy/buffered.py:BufferedSocket.write", "capnpy/buffered.py:BufferedSocket.flush"])
prop("C15", "Far pointers land on the right object",
 "In a multi-segment message, following a far pointer (one-word landing pad or two-word landing pad) yields the object which the Cap'n Proto specification designates in the segmented address space, for any segment layout; the flat buffer with the segment table is a faithful representation.",
 "all lists of segments, all far pointers in them",
 "unbounded segment tables and offsets",
 ["capnpy/segment/segment.py:MultiSegment.read_far_ptr"])
prop("C16", "Far pointers in a single-segment message are rejected",
 "On a single-segment message following a far pointer raises ValueError; a far pointer is never silently read as an object, by any of the getters.",
 "all single-segment buffers, all pointer fields",
 "all buffers",
 ["capnpy/segment/segment.py:Segment.read_far_ptr", "capnpy/struct_.py:Struct._read_struct"])
prop("C17", "Deep copy preserves the value",
 "Copying any well-formed object (struct or list, with far pointers, nested at any depth) into any SegmentBuilder produces at the destination an object with the same schema-less value: same data sections, same pointer structure, same list contents. (Lists of 2^28 items or more and structs with 2^15 pointers or more are refused by the pure-Python builder with struct.error.)",
 "all well-formed object graphs of any depth and width, any source layout, any destination builder state",
 "recursive data of unbounded depth; aliasing of source layouts",
 ["capnpy/segment/_copy_pointer.py:copy_pointer", "capnpy/segment/builder.py:SegmentBuilder.copy_from_pointer"])
prop("C18", "Deep copy only appends",
 "Copying a well-formed object into a builder changes no byte already in the builder except the eight bytes of the destination pointer; everything else is appended at the end.",
 "all well-formed sources, all builder states, all word-aligned destination positions",
 "frame property over all states",
 ["capnpy/segment/_copy_pointer.py:copy_pointer", "capnpy/segment/builder.py:SegmentBuilder.alloc_struct"])
prop("C19", "compact() returns an equal, self-contained object",
 "For every well-formed struct object, compact() succeeds and the returned object has the same value as the original, in a fresh buffer that contains nothing else.",
 "all well-formed structs, any segment layout",
 "unbounded object graphs",
 ["capnpy/struct_.py:Struct.compact"])
prop("C20", "compact() and constructors give compact objects",
 "The object returned by compact() (and by generated constructors) is compact in the documented sense: no gaps, no far pointers, children laid out one after the other; the buffer of a constructed object is exactly as long as its sections plus its arguments. This holds when no struct inside is empty, no struct list has unused words and, for constructors, when the fields given fill pointer slots in increasing order. (False otherwise: the pointer of an empty struct has offset -1, which the compactness test takes for a gap; a union member sharing an earlier slot is written after the field that follows.)",
 "all well-formed structs; all schema layouts and keyword arguments",
 "documented as a guarantee, over unbounded object graphs; false when a child struct is empty",
 ["capnpy/struct_.py:Struct.compact", "capnpy/struct_.py:Struct._is_compact", "capnpy/segment/endof.py:endof", "capnpy/compiler/structor.py:Structor", "docs/source/usage.rst"])
prop("C21", "Compacting is canonical and idempotent",
 "Two objects with the same value give byte-identical compact() buffers, whatever their original layout; in particular compacting a compacted object gives the same bytes.",
 "all pairs of well-formed structs with equal value",
 "relational property over unbounded object graphs",
 ["capnpy/struct_.py:Struct.compact", "capnpy/segment/_copy_pointer.py"])
prop("C22", "An object reported as compact is really self-contained",
 "If _is_compact() answers yes, the byte range computed for the object contains everything reachable from it: cutting that range out of the buffer and placing it anywhere else gives an object with the same value. (False when a struct list ends with unused words, which are left out of the range.)",
 "all buffers and objects, all target positions",
 "unbounded object graphs; a wrong answer silently produces corrupted messages",
 ["capnpy/segment/endof.py:endof", "capnpy/struct_.py:Struct._get_end"])
prop("C23", "loads(dumps(x)) == x",
 "For every well-formed struct object, dumping it (with or without the fast path) and loading the result gives an object with the same value. (On the fast path an empty root struct comes back as None, and unused words at the end of a struct list are lost.)",
 "all well-formed structs, both values of fastpath",
 "round-trip over unbounded object graphs; false for empty structs on the fast path",
 ["capnpy/message.py:dumps", "capnpy/message.py:loads", "capnpy/segment/base.py:BaseSegment.dump_message"])
prop("C24", "dumps() produces exactly one well-framed single-segment message",
 "The output of dumps() is a whole number of words, its header announces one segment whose size is exactly the rest of the output, so that messages can be concatenated in a stream.",
 "all well-formed structs, both values of fastpath",
 "length arithmetic over all objects",
 ["capnpy/message.py:dumps", "capnpy/segment/base.py:BaseSegment.dump_message"])
prop("C25", "Copying terminates, or says why not",
 "Copying a well-formed object always terminates successfully in a number of nested calls bounded by the object. (For hostile cyclic messages the copy never returns.)",
 "all well-formed objects; all cyclic messages",
 "termination cannot be tested",
 ["capnpy/segment/_copy_pointer.py:copy_pointer"])
prop("C26", "The Cython builder and the Python builder build the same bytes",
 "Any sequence of in-bounds builder operations (allocate, alloc_struct, alloc_list, alloc_text, write_*) gives the same positions and the same as_string() on the Cython SegmentBuilder (preallocated, growing buffer) as on the pure-Python one, for every initial capacity; no operation writes outside the allocated memory.",
 "all finite sequences of in-bounds operations, all initial capacities",
 "histories crossing arbitrary reallocation points",
 ["capnpy/segment/builder.pyx:SegmentBuilder", "capnpy/segment/builder.py:SegmentBuilder"])
prop("C27", "Old and new schemas interoperate",
 "Reading a field that lies beyond the data or pointer section of the actual object gives the type's zero (numbers, bits) or None (pointers) and never touches bytes of neighbouring objects; an object with larger sections than the schema knows is read the same through the known fields.",
 "all objects with any section sizes, all field offsets",
 "all combinations of writer and reader schema sizes",
 ["capnpy/struct_.py:Struct._read_primitive", "capnpy/struct_.py:Struct._read_fast_ptr", "capnpy/struct_.py:Struct._read_bit"])
prop("C28", "What you read depends only on the value, not on the layout",
 "Two struct objects with the same schema-less value answer every chain of field reads, list indexings and text reads identically, wherever they are stored (single segment, multi-segment with far pointers, inside lists, after a copy).",
 "all pairs of objects with equal value, all finite access paths",
 "relational, over unbounded graphs and paths",
 ["capnpy/struct_.py:Struct._read_struct", "capnpy/struct_.py:Struct._read_list", "capnpy/struct_.py:Struct._read_data", "capnpy/list.py:List.__getitem__"])
prop("C29", "Constructor arguments for scalar fields read back",
 "For every layout of non-overlapping integer fields with arbitrary schema defaults, the object built by the generated constructor returns, for each field, exactly the argument passed, and the schema default for each field left out; enums and floats without explicit default alike, at any depth of groups. (False when the schema uses certain names: a field called pos or builder, a group p with a field x beside a field p_x; false for floats with an explicit default, which cannot be constructed or read.)",
 "all layouts, all defaults, all representable arguments",
 "all schemas",
 ["capnpy/compiler/structor.py:Structor.handle_primitive", "capnpy/compiler/field.py:Field__Slot._emit_primitive"])
prop("C30", "Bool fields are independent bits",
 "For every set of bool fields at distinct bit offsets with arbitrary defaults, the constructed object returns each argument; writing a bool never changes another field. (True and False only: the int 2 given for a bool field sets the bit of the next field.)",
 "all bit offsets, defaults and arguments",
 "all schemas",
 ["capnpy/compiler/structor.py:Structor.handle_bool", "capnpy/segment/builder.py:SegmentBuilder.write_bool", "capnpy/compiler/field.py:Field__Slot._emit_bool"])
prop("C31", "Text, data, struct and list arguments read back",
 "For a constructor with any number of pointer fields, each Text/Data argument reads back byte for byte, each struct argument reads back as a struct with the same value, None reads back as None, and the fields do not interfere. (A struct with an AnyPointer field cannot be constructed.)",
 "all byte strings (including NULs and the empty string), all well-formed struct arguments, all numbers of fields",
 "unbounded contents",
 ["capnpy/segment/builder.py:SegmentBuilder.alloc_text", "capnpy/segment/builder.py:SegmentBuilder.copy_from_struct", "capnpy/segment/segment.py:Segment.read_str"])
prop("C32", "Unions hold one member at a time",
 "A constructor given two members of the same union raises TypeError; given exactly one it builds an object whose which() is that member, whose getter returns the argument, and whose other members raise ValueError on access; given none, which() is the member with discriminant 0. Cls.new_foo() sets foo, to its argument or default, and no other member. (False when a group is called anonymous and has a union, and, for new_foo(), when a group has a union with a member of the same name and order.)",
 "all unions, all argument combinations",
 "all subsets of members of all unions",
 ["capnpy/compiler/structor.py:Structor.handle_node", "capnpy/struct_.py:check_tag", "capnpy/struct_.py:Struct._ensure_union"])
prop("C33", "Nullable fields distinguish None from every value",
 "A $Py.nullable field returns None iff it was constructed with None (or a default-null schema and no argument), and otherwise returns the given value, including the value 0. (With convert_case off neither the constructor nor the getter work.)",
 "all values, all layouts of the is_null bit/int and of the value",
 "all values",
 ["capnpy/compiler/structor.py:Structor.handle_nullable", "capnpy/compiler/field.py:Field__Group._emit"])
prop("C34", "get_foo() and has_foo() agree with the plain getter",
 "has_foo() is true exactly when the pointer is not null; get_foo() equals foo when foo is not None, and otherwise is an empty value (b'', empty list, struct whose fields all have their defaults). (For members of a union, has_foo() and get_foo() of a text do not raise when another member is set, while foo does.)",
 "all objects, all pointer fields",
 "all objects",
 ["capnpy/compiler/field.py:Field__Slot._emit_has_method", "capnpy/compiler/field.py:Field__Slot._emit_struct"])
prop("C35", "List indexing behaves like Python lists",
 "For any list of n items, l[i] with -n <= i < n is the item of the equivalent Python list, every other index raises IndexError, slicing gives the same items as slicing the Python list, and iteration stops after n items.",
 "all lists, all integer indices, all slices",
 "unbounded indices",
 ["capnpy/list.py:List.__getitem__", "capnpy/list.py:List.__len__"])
prop("C36", "A Python list given to a constructor reads back as the same list",
 "For lists of integers of any width, of floats (Float32: rounded, C73), of text/data, and nested lists of those at any depth, the stored list has the same length and the same items; structs of matching size read back with equal value. (Lists of bool are refused; None inside of a list of lists reads back as an empty list.)",
 "all lists and nestings",
 "unbounded lengths and nesting",
 ["capnpy/segment/_copy_list.py:copy_from_list", "capnpy/list.py:ItemType.write_item", "capnpy/list.py:ItemType.read_item"])
prop("C37", "List equality means equal items",
 "Comparing two capnpy lists of comparable items answers True iff the lists have equal items, for lists laid out as constructors and compact() do; comparing a capnpy list of any layout (numbers, bools, bytes, nested lists) with a Python list answers True iff the Python list has exactly these items; lists of structs are refused with TypeError. (Two capnpy lists: false for floats, which are compared by their bytes, for padding garbage, for lists that are not compact and for lists of lists, see C71.)",
 "all pairs of lists",
 "relational over all layouts",
 ["capnpy/list.py:List._equals", "capnpy/list.py:List._get_slice"])
prop("C38", "Fast integer hashes equal Python's",
 "inthash(v) equals hash(v) for every signed 64-bit v and longhash(v) equals hash(v) for every unsigned 64-bit v, with no signed overflow on the way.",
 "all 2^64 values, signed and unsigned",
 "2^64 inputs with special cases at -1, -2^63, and multiples of 2^61-1",
 ["capnpy/_hash.pyx:_inthash_3", "capnpy/_hash.pyx:_longhash_3"])
prop("C39", "Structs with a key behave as their tuple",
 "A struct with $Py.key compares equal to a tuple iff its key fields equal the tuple's items, comparison between such structs is comparison of keys, and equal objects have equal hashes. (False hashes: a null text read as unicode with Cython; a List in the key, which without Cython gives a new hash at each call, with Cython a TypeError. An object with nan in its key equals nothing, as the tuple.)",
 "all structs, all keys (None, ints, bools, floats, bytes, texts, lists, nested keyed structs, tuples)",
 "all values",
 ["capnpy/struct_.py:Struct._equals", "capnpy/struct_.py:Struct.__hash__", "capnpy/_hash.pyx:strhash", "capnpy/compiler/struct_.py"])
prop("C40", "Enum names",
 "The name of an enum value is the declared member with that ordinal, and any value that is not a declared ordinal is reported as unknown<n>. (Refuted for wire values >= 0x8000.)",
 "all member tuples, all values",
 "all schemas and all 16-bit values",
 ["capnpy/enum.py:BaseEnum.name"])
prop("C41", "Code generation options: the nearest annotation wins",
 "The options in force at a node are, for each option independently, the value given by the nearest enclosing annotation that sets it; combining is associative and unset options never override.",
 "all chains of annotations",
 "unbounded nesting",
 ["capnpy/annotate_extended.py:Options.combine", "capnpy/compiler/module.py"])
prop("C42", "camelCase conversion only inserts underscores and lowercases",
 "from_camel_case never loses, reorders or invents characters: deleting underscores and lowercasing the input gives the output with underscores deleted; converting twice is converting once; distinct names that differ beyond case and underscores stay distinct.",
 "all names",
 "unbounded strings through two regex substitutions",
 ["capnpy/convert_case.py:from_camel_case"])
prop("C43", "Pickled and raw-dumped objects come back equal",
 "Pickling (or _raw_dumps/_raw_loads) rebuilds an object with the same buffer, segment table and position, hence the same value.",
 "all objects",
 "all objects",
 ["capnpy/struct_.py:Struct.__reduce__", "capnpy/struct_.py:Struct._raw_dumps", "capnpy/segment/segment.py:MultiSegment.__reduce__"])
prop("C44", "AnyPointer reports the kind of the target",
 "is_struct()/is_list()/is_text() are true exactly for pointers to an object of that kind and the as_* accessors give the target or None for null, whether the pointer is far or not, and refuse a target of another kind; dumps() is the dump of the struct. (False for the predicates behind far pointers, where all of them answer False, and for null pointers, which are reported as structs.)",
 "all pointer fields",
 "all messages",
 ["capnpy/anypointer.py:AnyPointer"])
prop("C45", "Duplicate field names are refused",
 "The generated constructor exists only if its argument names are pairwise distinct; otherwise code generation raises ValueError; so no argument silently shadows another.",
 "all field lists",
 "all schemas",
 ["capnpy/compiler/structor.py:Structor.emit"])
prop("C46", "A copy writes only to its destination pointer and to fresh space",
 "Whatever the bytes of the source message, a pure-Python copy that succeeds changes nothing of what was already in the builder except the destination pointer. With the compiled builder the same holds, and neither the copy nor dumps() touches memory outside of the source and of the builder, and spare memory stays zero, for every source, well-formed or not, in which no struct or list starts before the buffer and every struct list has room for the items of its tag. (False for the other hostile sources on the compiled builder: a struct-list tag announcing more items than the list holds, or a negative offset, make it write or read outside of its allocation.)",
 "all byte strings as source (Python); all well-formed sources, all capacities (compiled)",
 "adversarial inputs, arbitrary graphs",
 ["capnpy/segment/_copy_pointer.py:_copy_list_composite", "capnpy/segment/_copy_pointer.h:CHECK_BOUNDS", "capnpy/segment/_copy_pointer.pyx:read_int64_fast"])
prop("C47", "The decode command prints every message of a file",
 "capnpy decode prints, in order, exactly the messages load_all yields for the same file. (It does not exit cleanly: a file of complete messages ends with an uncaught EOFError, a file cut in the middle of a message exits as if it were complete, and a message with a null root gives AttributeError.)",
 "all files of messages, complete or cut, all printers",
 "all files",
 ["capnpy/__main__.py:decode"])
prop("C48", "A file-like object gives the same result as its adapter",
 "Wrapping a file-like object for the Cython loader does not change what read() returns, hence what load returns. (False for readline(): the adapter returns the bound method instead of a line and consumes nothing.)",
 "all file-like objects",
 "all behaviours of the wrapped object",
 ["capnpy/filelike.py:FileLikeAdapter"])

prop("C49", "Loading from a socket never waits for the next message",
 "load() on a BufferedStream asks the transport for no chunk after the chunk in which the message ends: without the last chunk it asked for, the message was not complete. So a request/response protocol over a socket does not deadlock in load().",
 "all messages, all chunkings, any following bytes",
 "depends on every packet boundary; over-reading only shows as a hang",
 ["capnpy/buffered.py:BufferedStream._fillbuf", "capnpy/buffered.py:BufferedStream.read", "capnpy/message.py:load"])

prop("C50", "Every accessor of a class is the one of its field",
 "In the class generated for a struct, s.foo reads the field foo, get_foo/has_foo/is_foo/new_foo/Foo are those of foo, nested types are reachable under their names, and inherited methods are hidden only by a field of that name, provided that no name of the schema is one of the names capnpy makes up. (Each kind of clash silently replaces an accessor, and a field called property makes the import fail.)",
 "all structs, all fields, all names",
 "all combinations of names of a schema",
 ["capnpy/compiler/struct_.py:Node__Struct.emit_definition", "capnpy/compiler/field.py"])
prop("C51", "Different declarations of a schema get different Python names",
 "Every struct, enum, constant and annotation of a schema file is found in the generated module under a name that depends only on its path, different declarations have different names, and no declaration takes a name the module itself needs. (Nested annotations replace one another; names that are Python keywords are not changed except for fields.)",
 "all schema files",
 "all combinations of names",
 ["capnpy/compiler/node.py:Node._fullname", "capnpy/compiler/node.py:Node__Annotation", "capnpy/compiler/struct_.py"])
prop("C52", "Imports of a schema are bound to different variables",
 "The module generated for a schema binds each imported schema it uses to its own variable, in the order of the imports; code generation fails exactly if two of them have the same base name (up to + and PLUS). (The failure is an AttributeError; a base name with a dash gives a syntax error.)",
 "all lists of imports",
 "all file names",
 ["capnpy/compiler/module.py:ModuleGenerator.register_import", "capnpy/compiler/request.py:_declare_imports"])
prop("C53", "load_schema gives one module per file",
 "After a successful load_schema, every later load_schema that means the same file, by module name, import name or file name, returns the same module object, after any history of loads, edits and changes of directory; a module shares the modules of its imports with everybody else; a failed load can be tried again; a file loads iff its sources are good, its imports are found and there is no cycle; sys.modules is left as it was. (Options and pyx mode of a later load are ignored and options do not reach the imports; schemas that import one another never load; in pyx mode a file that imports another one of the same base name raises KeyError and a user's module foo_tmp is removed from sys.modules.)",
 "all file systems, all import graphs, all histories",
 "unbounded histories and import graphs",
 ["capnpy/compiler/compiler.py:DynamicCompiler.load_schema", "capnpy/compiler/compiler.py:DynamicCompiler._get_filename", "capnpy/compiler/request.py:_declare_imports"])
prop("C54", "The distutils compiler leaves an output that matches the schema",
 "After any history of edits of a schema and of compilations with the same options, a compile() that succeeds leaves the output of the generator for the current schema; it does not rewrite an output that is up to date and does not touch the output of the other mode. (False if the options, an imported schema or the mtimes change, if the clock is set back, or if an earlier compile() was interrupted while writing.)",
 "all histories of edits, compilations, clock ticks and crashes",
 "depends on histories and crash points",
 ["capnpy/compiler/compiler.py:DistutilsCompiler.compile"])

prop("C55", "shortrepr shows the value and can be read back",
 "s.shortrepr() depends only on the value of s, errors included: it is the same after compact() and after dumps() and loads(). A reader of capnp's text format gets back from it exactly the fields that are set, with their contents; so structs with the same shortrepr have the same contents. (Not so for enum members whose name is converted, lists of enums, unknown enum values and AnyPointers; it raises for null items in lists of texts, lists of Data, Text that is not UTF-8, and unions with a nullable member.)",
 "all schemas, all values, all buffers",
 "all values of all schemas, at any nesting depth",
 ["capnpy/compiler/struct_.py:_emit_repr", "capnpy/compiler/struct_.py:_shortrepr_for_field", "capnpy/list.py:List.shortrepr", "capnpy/util.py:data_repr"])
prop("C56", "Text and Data are printed as string literals that mean the same",
 "A Data field is printed as a string literal that denotes exactly its bytes, whatever they are and whatever follows. A Text is, exactly if it has no newline and no backslash other than before a single quote. (Otherwise the literal denotes another text, or is malformed, or ends early.)",
 "all byte strings, all texts",
 "all strings",
 ["capnpy/util.py:data_repr", "capnpy/util.py:text_unicode_repr"])
prop("C57", "Unicode texts are encoded and decoded without loss",
 "What is passed for a unicode Text field is read back unchanged, and every text that is read encodes to the bytes of the message; bytes that are not UTF-8 and strings with surrogates raise a ValueError (UnicodeDecodeError, UnicodeEncodeError).",
 "all strings of code points, all byte strings",
 "all strings",
 ["capnpy/util.py:encode_maybe", "capnpy/util.py:decode_maybe", "capnpy/compiler/structor.py:handle_text_unicode", "capnpy/struct_.py:_read_text_unicode"])

prop("C58", "The compiled library reads what the pure one reads",
 "On every message, and for every sequence of accesses to fields and items, the compiled (Cython) library gives the answer the pure Python one gives whenever that one gives an answer; and no such sequence reads memory outside of the message, whatever the bytes are. (Where the pure library raises IndexError for a pointer that leads outside of the message, the compiled one may return None, an empty list or 0 instead, and which() returns 0; which() raises SystemError for the tag 65535; a read method of a segment called with an offset near 2^63 reads wild memory.)",
 "all byte strings, all sequences of accesses",
 "all messages, hostile ones included, and two implementations",
 ["capnpy/segment/base.pyx", "capnpy/segment/segment.pxd", "capnpy/struct_.pxd", "capnpy/list.pxd", "capnpy/struct_.py:Struct", "capnpy/list.py:List"])
prop("C59", "The compiled loader accepts the same messages as the pure one",
 "Every message shorter than 2 GiB that the pure loads() or load() accepts is accepted by the compiled one with the same result. What else the compiled one accepts is known exactly: a header that announces one segment with the right size modulo 4 GiB, for a file any size whose low 32 bits are negative as an int, and root pointers that lead outside of the message. (So the compiled library does accept truncated messages.)",
 "all byte strings, all file contents",
 "all inputs of two implementations",
 ["capnpy/message.pxd", "capnpy/message.py:_load_message", "capnpy/message.py:_load_message_single", "capnpy/message.py:_load_message_multi", "capnpy/buffered.pxd", "capnpy/filelike.pxd"])
prop("C60", "The compiled dumps() writes the same bytes as the pure one",
 "For every object with a value, wherever it lies and whatever path is taken, the compiled dumps() writes the bytes the pure one writes, and the compiled loads() reads the value back; _is_compact() gives the same answer. (An assertion failure while looking for the end of an object is ignored by the compiled library: an object at the beginning of its buffer that contains a capability pointer is dumped as something that is not a message.)",
 "all objects, both values of fastpath, any contents of fresh memory",
 "all objects and two implementations",
 ["capnpy/segment/endof.pxd", "capnpy/segment/endof.py", "capnpy/struct_.pxd:_get_end", "capnpy/message.py:dumps", "capnpy/segment/base.pyx:dump_message"])

prop("C61", "The constants of a schema have their values in the generated module",
 "Importing the module generated for a file gives every constant of the file, at any depth of nesting, the value the schema gives it: numbers, booleans, finite floats and texts as Python objects, enums as ints, structs and lists as objects of the right class or item type that read the declared value; and the import raises nothing. (Not when: the file has an interface; a float is not finite; a list constant without reflection data, or whose struct is completed later; a struct whose options want reflection data in a file that has none; a struct class hidden by a nested declaration of the same name.)",
 "all files (any nesting), all constants, all messages the compiler may have got them from",
 "all schemas: what is generated is text, interpreted again by Python",
 ["capnpy/compiler/node.py:Node__Const", "capnpy/compiler/module.py:declare_const", "capnpy/compiler/misc.py:Value.as_pyobj", "capnpy/compiler/request.py", "capnpy/compiler/struct_.py:emit_definition"])
prop("C62", "The item type of a list is that of its schema",
 "For every List(T), nested to any depth, the generated expression makes the item type of T: with the type of text that the options ask for, and with the class of the struct or enum wherever it is declared. (Without Cython, a struct or enum nested in a declaration of an imported file cannot be named: AttributeError at import.) List(AnyPointer), lists of interfaces and texts without a text type are refused.",
 "all types, with and without Cython",
 "all types: the expression is text interpreted by Python",
 ["capnpy/compiler/misc.py:list_item_type", "capnpy/compiler/node.py:compile_name"])
prop("C63", "The reflection data of a generated module is the compiler's request",
 "The text written for the reflection data denotes exactly the request the compiler read, in one segment or in several, and the default options it used; after importing a module whose file has includeReflectionData, _reflection_data holds those two, otherwise it does not exist.",
 "all requests, all byte contents",
 "all byte strings: escaping and unescaping",
 ["capnpy/compiler/request.py:_emit_reflection_data", "capnpy/compiler/module.py:declare_const"])

prop("C64", "Reading a list whose elements were changed between scalars or pointers and structs",
 "Cap'n Proto lets a schema turn the elements of a list (other than Bool) into structs whose first field has the old type; old and new readers must then understand both layouts. capnpy does so in one case only: a list of pointer-only structs read as a list of texts gives the first pointer of each struct. A list of scalars or pointers read as structs raises AssertionError for every item when the buffer is shorter than 1048560 bytes; in a longer one the first field is right and the fields after it are read from the following items. A list of structs read as scalars gives the tag word as item 0, and is one word early for all others.",
 "all well-formed objects, all lists and positions, both directions",
 "all messages of two versions of a schema",
 ["capnpy/list.py:StructItemType.read_item", "capnpy/list.py:PrimitiveItemType.read_item", "capnpy/list.py:TextItemType.read_item", "capnpy/list.py:_set_list_tag"])
prop("C65", "Annotation queries give the annotations of the schema, whatever was asked before",
 "Through the reflection API, after any sequence of calls: get_node gives the last node with the id (KeyError when there is none); has_annotation says whether the entity has an annotation of that class; get_annotation gives the value of the first one (KeyError when there is none). In the compiler, where annotations are also registered for other entities, an entity with at most one registered annotation has this one and its own, in that order, after any history. (With two registrations the order depends on the queries in between.)",
 "all schemas, all sequences of queries and registrations",
 "all histories: has_annotation changes the list it looks at",
 ["capnpy/reflection.py:ReflectionData", "capnpy/compiler/module.py:has_annotation", "capnpy/compiler/module.py:register_extra_annotation", "capnpy/schema_extended.py:Field.__hash__"])

prop("C66", "$Py.key and $Py.group mean the fields they name",
 "The text of the annotation is a comma-separated list with any blanks around the names. With $Py.key the key of an object is the tuple of the values of the named fields in that order ('*': all fields); a name that is not a field is refused when compiling. With $Py.group on a Void field, obj.g is a view of the object: obj.g.x is obj.x for every named field x that is not a member of the union of the struct (TypeError for those), and obj.g obeys the union check of g. (Compiling also fails when two group ids clash, which depends on hash() of the names and so on the run of Python.)",
 "all classes, all texts, all objects, all hash functions",
 "all texts and all objects; the hash of bytes is random in each process",
 ["capnpy/compiler/struct_.py:_emit_key_maybe", "capnpy/schema_extended.py:Node__Struct.from_group_annotation", "capnpy/compiler/module.py:handle_py_groups", "capnpy/compiler/field.py:_emit_void"])

prop("C67", "The compiled packing functions agree with the pure ones",
 "unpack_primitive, unpack_int64/int16/uint32, pack_into, pack_int64_into, pack_int64 and pack_message_header of the compiled packing module give the result of the pure ones for every integer format, buffer, offset and value inside the buffer; the value written reads back and only its bytes change. The differences are known exactly: an offset that is not a C int is an OverflowError; outside of the buffer unpack_int64/int16/uint32 return 0 instead of raising IndexError; a value that does not fit is OverflowError instead of IndexError; negative offsets of pack_into count from the end in the pure version only; and for the last offsets before 2^31 the bound check overflows, so that memory outside of the buffer is read or written.",
 "all integer formats, buffers, offsets and values",
 "all offsets and values of two implementations, 32-bit overflow included",
 ["capnpy/packing.pyx", "capnpy/packing.py", "capnpy/packing.pxd"])
prop("C68", "Code generation options reach the generated module, and the version check works",
 "The options given on the command line, in the capnpy_options of setup.py or to load_schema are the options the generator uses, the others have their documented defaults (text: bytes, everything else on), and none is left unset; unknown options and text types are refused. The generated module checks the version unless the caller said no. A module that checks, generated by another version of capnpy, cannot be imported and is not left in sys.modules, even if it is an extension module; otherwise the check does not get in the way. (versionCheck in the $Py.options of the schema is ignored.)",
 "all option dictionaries in any order, all flags, all annotations, all versions, all states of sys.modules",
 "all combinations and orders of options, all import states",
 ["capnpy/annotate_extended.py:Options.from_dict", "capnpy/annotate_extended.py:TextType.parse", "capnpy/__main__.py:parse_argv", "capnpy/compiler/distutils.py:capnpy_schemas", "capnpy/compiler/compiler.py:generate_py_source", "capnpy/util.py:check_version"])
prop("C69", "Extensions of generated classes and modules take effect",
 "@C.__extend__ gives a class every attribute of the extending class body and changes nothing else; in a Python class operators use the special methods among them; in a Cython class a special method is refused with TypeError (not so for those that only Python 3 has, such as __bool__ and __next__: they are accepted and have no effect on operators). The code of NAME_extended.py is executed on the definitions of the module: for load_schema the file next to the schema, for a standalone module the first one on sys.path (which need not be the one next to the module); without such a file the module is what was generated.",
 "all classes and class bodies, all file systems, search paths and module names",
 "all class bodies and file systems",
 ["capnpy/util.py:extend", "capnpy/util.py:magic_setattr", "capnpy/_util.pyx:setattr_builtin", "capnpy/util.py:extend_module_maybe", "capnpy/util.py:find_module", "capnpy/compiler/request.py:RequestedFile.emit"])

prop("C70", "AnyPointer.as_list(type) reads what a field of that type reads",
 "For every element type that can be written in Python (int, float, bytes, unicode, Types.x, a struct or enum class, [t] for nested lists) p.as_list(type) gives what the getter of a field List(t) on the same pointer gives, errors included; so does as_list with an item type object. Everything else is refused: Types.text and unknown objects with NotImplementedError, a list of length other than one with ValueError, the class Struct itself with AttributeError.",
 "all element types at any depth of nesting, all objects and pointers, both compiler modes",
 "all types nested to any depth, all messages",
 ["capnpy/list.py:ItemType.from_type", "capnpy/anypointer.py:AnyPointer.as_list", "capnpy/type.py", "capnpy/compiler/misc.py:list_item_type"])
prop("C71", "A list compared with itself",
 "Reading a list field twice gives lists with the same count and bytes, and the comparison answers exactly this: TypeError for lists of structs, True for all other lists, except for lists of lists whose inner item type is made anew at each access, which are never equal. (Those: without Cython lists of lists of numbers, bools, texts, data or lists; with Cython lists of lists of lists and of imported structs and enums.) The same for two lists of the same bytes in different objects.",
 "all element types, all objects, both compiler modes",
 "all types and contents; depends on object identity",
 ["capnpy/list.py:List._equals", "capnpy/list.py:ListItemType.get_type", "capnpy/compiler/field.py:_emit_list", "capnpy/compiler/misc.py:list_item_type"])

prop("C72", "Unsupported schemas are refused when compiling",
 "A schema is compiled exactly when it uses only what is supported; otherwise an exception tells so. Not supported: interfaces (AssertionError where declared, TypeError as a field), explicit defaults of Text, Data, List, struct, AnyPointer and Void fields (ValueError), lists of interfaces or AnyPointers (NotImplementedError), $Py.nullable groups that do not have the fields isNull and value (TypeError or ValueError), whose value is a pointer (ValueError) or with a Void field (IndexError), $Py.key with unknown names (ValueError) or on a field that is not a group (AssertionError, KeyError), and two constructor parameters of the same name (ValueError). (Not refused although of no use: a nullable group that is a union, and a group as the flag of a nullable in a nested union.)",
 "all schemas: structs with groups and declarations nested to any depth, both compiler modes, any naming of fields",
 "all nestings and combinations",
 ["capnpy/compiler/field.py", "capnpy/compiler/struct_.py:emit_definition", "capnpy/compiler/structor.py", "capnpy/compiler/fieldtree.py", "capnpy/annotate_extended.py:nullable.check", "capnpy/schema_extended.py:Field_slot.get_size", "capnpy/compiler/node.py:Node.emit_declaration"])

prop("C73", "Floats are stored as the nearest float of the field",
 "A float given for a Float64 field, or in a list of Float64, is read back bit by bit. Given for a Float32 it is read back as the Float32 nearest to it, with ties to the even pattern, with its sign (also of -0.0); beyond the range of Float32 as the infinity of its sign (no exception), infinities as themselves, nan as nan; a float that is a Float32 is read back bit by bit. A Float32 of any message reads as the float with the same number. An int or bool is first converted to the nearest float (exactly up to 2**53), and refused with struct.error when that is beyond the largest float; anything else is refused with struct.error. (An int given for a Float32 is therefore rounded twice: not always the nearest Float32.)",
 "all 2**64 floats, all 2**32 patterns, all integers; all layouts, all lists",
 "all bit patterns and roundings",
 ["capnpy/segment/builder.py:write_float32", "capnpy/segment/builder.py:write_float64", "capnpy/packing.py:unpack_primitive", "capnpy/compiler/structor.py:Structor.handle_primitive", "capnpy/list.py:PrimitiveItemType.write_item", "capnpy/list.py:PrimitiveItemType.read_item"])

prop("C74", "Compiled constructors build the same object",
 "For every schema the capnp compiler can produce (with names that do not clash) and every call with arguments of the right types, Cls(**kw) and Cls.new_foo(**kw) of a module compiled by Cython build the same object, byte by byte, as the pure-Python ones, whatever the memory allocator returns, and no access leaves the allocated memory. Two members of one union, at any depth, are refused with TypeError, as is an unknown keyword; an integer that does not fit its field is refused, with OverflowError instead of struct.error. (Differences: a bool field takes the truth value of any object, but reads back as False for a truthy non-bool when its default is True; fields named pos or builder are refused by the Cython compiler; an item of a list of structs with sections larger than those of the schema is copied past the end of the list, and past the memory of the builder.)",
 "all struct layouts, all keyword arguments, all contents of uninitialised memory",
 "the compiled builder uses raw memory whose contents depend on the run; any layout",
 ["capnpy/segment/builder.pyx:SegmentBuilder", "capnpy/compiler/structor.py:Structor", "capnpy/compiler/struct_.py:Node__Struct", "capnpy/segment/_copy_list.py:copy_from_list", "capnpy/segment/_copy_pointer.py:_copy_struct_inline"])

prop("C75", "Whatever the bytes of a message, reading it is contained",
 "For any byte string r whatsoever: capnpy.loads(r, Cls) either returns or raises IndexError, ValueError or AssertionError (EOFError exactly when r is empty is also possible); on any object or list reached from it by any sequence of field reads and indexings, with any schema, every field read, AnyPointer query, indexing, slicing and loop returns or raises one of the three, a loop ends after at most len() items, len() is less than 2^29; every number, text or data read from it is decoded from a contiguous part of r, or is the default value. compact() and dumps() may also raise struct.error or hit the recursion limit. (Not bounded by the size of r: len() of a list of voids, 536870911 for 24 bytes; and compact(): 464 bytes can give 4 GB.)",
 "all byte strings, all field positions and types, all paths of reads",
 "all byte strings",
 ["capnpy/message.py:loads", "capnpy/struct_.py:Struct", "capnpy/list.py:List", "capnpy/segment/segment.py:Segment", "capnpy/anypointer.py:AnyPointer", "capnpy/segment/_copy_pointer.py:copy_pointer", "capnpy/segment/endof.py:endof"])

prop("C76", "A list read from another message and given to a constructor is copied",
 "When Cls(**kw) succeeds and a keyword argument of a List field is a capnpy List read from any other message, with items of the type of the field, the list read back from the new object has the same length and at each index the same item: the same integer, float, text, a struct of equal value, an inner list that is itself such a copy. Every such list of voids, numbers or texts whose items can be read is accepted, if its value is within the limits of the format.",
 "all struct layouts, all calls, all lists of all messages, all item types (but bool, never readable)",
 "all messages the argument may have been read from",
 ["capnpy/segment/_copy_list.py:copy_from_list", "capnpy/list.py:List", "capnpy/compiler/structor.py:Structor"])

prop("C77", "The compiler reads the schema of the request rightly",
 "Given a CodeGeneratorRequest message in any well-formed encoding, the class of each struct of it has exactly the layout that the schema says: sizes of its sections, and each field, in order, with its offset, type, discriminant, default value, union tag, group structure and nullable mark, lists with the item type (nested lists, and the sizes of the structs found by id among all the nodes); so an instance of a class loaded from such a message reads back as its arguments. Nothing else gives a class: not a struct with a field of a type that capnpy cannot handle (interface, list of interfaces or AnyPointers, a pointer with a default value), a reference to an id that the request does not have or that is not a struct, a group marked nullable that does not have exactly the fields isNull and value or whose value is a pointer, a name that is not ASCII, or a group that contains itself. schema.py itself, with which the request is read, is consistent: its layouts are admissible, and its constructors are those that the compiler generates for them.",
 "all requests, all encodings of them (any placement, any segments), all schemas, any nesting of groups and lists",
 "all schemas and all encodings of their requests",
 ["capnpy/schema.py:CodeGeneratorRequest,Node,Field,Type,Value,Annotation", "capnpy/schema_extended.py", "capnpy/compiler/module.py:ModuleGenerator.collect_nodes", "capnpy/compiler/fieldtree.py:Node", "capnpy/compiler/misc.py:list_item_type", "capnpy/compiler/field.py:Field__Slot._emit", "capnpy/annotate_extended.py:nullable.check"])

prop("C78", "The hexadecimal dump of a buffer shows the buffer",
 "print_buffer(buf) and _print_buf() print one line for each whole word of the range, in order. Without its colours, a line gives the address of the word, its eight bytes in hexadecimal, their ASCII text, the word as a signed integer and as a double, and, read as a pointer: NULL, or kind, sizes and target address (a question mark for what is too big). Two different words never give the same line, so two buffers of whole words with the same dump are equal. _print_buf() of a compact struct prints the words of the object; of one that is not compact, only the header. A range that ends after the buffer raises struct.error. (Not so: the header goes to sys.stdout even if the printer has another stream; the address shown for a far pointer means nothing; on Python 3 human=False raises AttributeError as soon as there is a word to print.)",
 "all buffers, all ranges within them, all words, all objects",
 "all words and all pointer fields",
 ["capnpy/printer.py:print_buffer,BufferPrinter", "capnpy/blob.py:Blob._print_buf"])

prop("C79", "The compiler runs the right capnp, and a failed compilation leaves the old output",
 "`capnpy compile` (StandaloneCompiler.compile) first runs `capnp --version`: a version older than 0.5.0 (missing numbers are zeros; N-dev comes before N) raises CompilerError, any other release is accepted and is passed to the generator as the version of capnp; a version text with 'unknown' is accepted; a text that is not capnp's is refused. Then it runs capnp once on the absolute name of the file, with a -I option for each directory of the path that exists, in order, and / last; a nonzero exit status raises CompilerError. If anything raises, no file is changed. If nothing does, exactly one file is written: dir/name.py next to dir/name.ext in py mode, the shared object in the same directory in pyx mode. --no-pyx always means py mode; without it a missing Cython extension is no error. (Not so: a schema in a file called name.py is overwritten.)",
 "all versions, all outputs and exit statuses of the processes, all paths, all file systems",
 "all version numbers and all outcomes of the processes that are run",
 ["capnpy/compiler/compiler.py:BaseCompiler.getpyx,_capnp_compile,_capnp_check_version,_exec,generate_py_source", "capnpy/compiler/compiler.py:StandaloneCompiler", "capnpy/compiler/util.py:as_identifier", "capnpy/__main__.py:compile,parse_argv"])

prop("C80", "The generated text of accessors is Python and does what accessors are specified to do",
 "For every field of a schema, the lines that the compiler writes into the class (the property, get_foo, has_foo, is_foo; the property of a group, the two properties of a nullable group) are Python text: they are read, token by token, line by line and with their indentation, as exactly one list of function definitions. Running these functions on an instance gives the same value, or raises the same exception, as reading the field (see the properties about reading slots, groups and unions): the offsets, formats, defaults, discriminants and class names printed into the text are the right ones.",
 "all field types, offsets, discriminants, defaults, names and class names; all instances",
 "all schemas: every offset, default and name is printed as text and read back by Python",
 ["capnpy/compiler/field.py", "capnpy/compiler/module.py:def_property", "capnpy/compiler/struct_.py:_emit_union_tag", "capnpy/type.py:fmt"])

prop("C81", "The generated text of constructors is Python and constructs what constructors are specified to construct",
 "For every struct of a schema, the text of its constructors (__new, __init__, new_foo for each member of its union, and the constructor of each group) is Python, and running it makes the call what the documentation says: positional and keyword arguments go to the fields in the order of the schema, with the defaults of the schema; too many arguments, unknown names and duplicates are a TypeError; the instance that comes out holds the arguments, and its properties (also run from their text) return them. This fails for a group whose name, capitalized, is a keyword (none), and for an infinite default of a float.",
 "all structs, groups and unions of any nesting, all names, all lists of positional and keyword arguments",
 "all schemas and all calls: offsets, defaults, names of temporaries and the order of parameters are printed as text",
 ["capnpy/compiler/structor.py:Structor", "capnpy/compiler/fieldtree.py:FieldTree", "capnpy/compiler/struct_.py:_emit_ctors", "capnpy/compiler/field.py:_emit_ctor_like"])

prop("C82", "A generated class as a whole is what its schema says",
 "The methods written for a struct or group (is_foo for the members of its union, the accessors of each field, its constructors), taken together as the body of one class, are Python, and the class made from them has every accessor and constructor of the schema: none is hidden by another one, provided that no two of their names are the same and none is that of a method of Struct. An instance made by the constructor of the class gives its arguments back through the properties of the class. Two fields x and hasX break this: the method has_x hides the property has_x.",
 "all structs and groups with any fields, names and unions; all calls and instances",
 "all schemas: whether one method of a class hides another depends on all the names of the schema",
 ["capnpy/compiler/struct_.py:emit_definition", "capnpy/compiler/struct_.py:_emit_union_tag", "capnpy/compiler/struct_.py:_get_enum_items", "capnpy/compiler/field.py", "capnpy/schema.py", "capnpy/annotate.py"])

prop("C83", "The method written for $Py.key gives the key of the object",
 "For a struct annotated with $Py.key, the lines of _key written into its class are Python (if the key has at least one field), and calling obj._key() on an instance of the class made from the text returns the tuple of the values of the fields named by the annotation, in their order ('*': all the fields of the struct), and raises the error of the first one which cannot be read. A struct without fields and $Py.key('*') gets `return (,)`, a SyntaxError; a nullable group called key in a class with $Py.key cannot be read: its view is obj._key, the name of the method.",
 "all structs with any fields and keys of slots other than structs and AnyPointer; all instances and buffers",
 "all schemas and all buffers; tests compile a few classes with a key",
 ["capnpy/compiler/struct_.py:_emit_key_maybe", "capnpy/compiler/field.py", "capnpy/schema_extended.py"])

prop("C84", "The method shortrepr() written into a class prints the object",
 "For every struct and group whose fields have Python names and whose names in the schema are identifiers, the lines of shortrepr() written into its class are Python. Calling obj.shortrepr() on an instance of a class made from that text returns, for every buffer, the text which the direct model of printing gives: (a = .., b = ..) with the parts of the members that are shown (null pointers left out, except for the current member of a union other than the one with discriminant 0), recursively through structs, groups and lists, or raises the same error.",
 "all schemas (recursive ones too), all instances, buffers and depths of calls",
 "all schemas and all buffers; tests print a few objects",
 ["capnpy/compiler/struct_.py:_emit_repr", "capnpy/compiler/struct_.py:_shortrepr_for_field", "capnpy/list.py:List.shortrepr", "capnpy/util.py"])

prop("C85", "A generated module can be imported and holds the classes of the schema",
 "For every schema without imports and interfaces, whose names are Python names and differ from each other, the text of the generated module (header, forward declarations, definitions, constants) is one Python module, read in one way. Importing it with the version of capnpy that wrote it (or any version with --no-version-check) succeeds, and then: every enum, at any depth, is a class with its id and members, member k being the instance k, and its item type; every struct and group is a class with its id, sizes, name and item type; its nested types are its attributes under their short names; the class of a union has the tag, an enum of the members in the order of the discriminants, and its offset; every method is the function written for it; every annotation is a class with its id. With another version the import fails.",
 "all schemas (any number and depth of nested types and groups), ids, sizes, names, values of constants, versions",
 "all schemas; tests compile a few",
 ["capnpy/compiler/request.py", "capnpy/compiler/struct_.py", "capnpy/compiler/enum.py", "capnpy/compiler/node.py", "capnpy/compiler/module.py:declare_enum", "capnpy/enum.py:fill_enum", "capnpy/util.py:extend, check_version, extend_module_maybe"])

with open(os.path.join(os.path.dirname(__file__), '..', 'properties.jsonl'), 'w') as f:
    for p in P:
        f.write(json.dumps(p) + '\n')
print(len(P))
