{
 "claims": [
  {
   "property": "C01",
   "status": "proved",
   "theorems": [
    "C01_new_struct_roundtrip"
   ],
   "note": ""
  },
  {
   "property": "C02",
   "status": "proved",
   "theorems": [
    "C02_new_list_roundtrip"
   ],
   "note": ""
  },
  {
   "property": "C03",
   "status": "proved",
   "theorems": [
    "C03_new_far_roundtrip"
   ],
   "note": ""
  },
  {
   "property": "C04",
   "status": "proved",
   "theorems": [
    "C04_decode",
    "C04_decode_ranges",
    "C04_rebuild"
   ],
   "note": "all integers, so both the signed and the unsigned reading of a word"
  },
  {
   "property": "C05",
   "status": "proved",
   "theorems": [
    "C05_c_arith_agrees",
    "C05_c_builders_agree",
    "C05_c_readers_agree",
    "C05_item_length_agrees"
   ],
   "note": "C macros evaluated in wrapping 64-bit arithmetic"
  },
  {
   "property": "C06",
   "status": "proved",
   "theorems": [
    "C06_out_of_range_rejected",
    "C06_write_then_read"
   ],
   "note": "integer formats; floats are the same bytes as unsigned integers, their values: C73"
  },
  {
   "property": "C07",
   "status": "proved",
   "theorems": [
    "C07_read_primitive_total"
   ],
   "note": ""
  },
  {
   "property": "C08",
   "status": "proved",
   "theorems": [
    "C08_load_message",
    "C08_loads_value",
    "C08_segment_table"
   ],
   "note": "arbitrary padding bytes and following bytes"
  },
  {
   "property": "C09",
   "status": "proved",
   "theorems": [
    "C09_truncated_never_accepted",
    "C09_truncated_stream",
    "C09_valueerror_refuted"
   ],
   "note": "an object is never returned; the exception is ValueError except for messages whose segments are all empty (C09_valueerror_refuted)"
  },
  {
   "property": "C10",
   "status": "proved",
   "theorems": [
    "C10_accepts_only_messages",
    "C10_trailing_bytes_rejected"
   ],
   "note": "both directions: trailing bytes are refused, and whatever loads() accepts is exactly one frame"
  },
  {
   "property": "C11",
   "status": "proved",
   "theorems": [
    "C11_load_all",
    "C11_load_all_cut"
   ],
   "note": ""
  },
  {
   "property": "C12",
   "status": "proved",
   "theorems": [
    "C12_buffered_stream",
    "C12_string_buffer"
   ],
   "note": "reads with n >= 0; the transport returns b'' only at the end"
  },
  {
   "property": "C13",
   "status": "proved",
   "theorems": [
    "C13_chunking_irrelevant",
    "C13_position"
   ],
   "note": ""
  },
  {
   "property": "C14",
   "status": "proved",
   "theorems": [
    "C14_failed_flush_refuted",
    "C14_socket_sends"
   ],
   "note": "for successful sends; a failed sendall is C14_failed_flush_refuted"
  },
  {
   "property": "C15",
   "status": "proved",
   "theorems": [
    "C15_far_pointers",
    "C15_read_far_ptr"
   ],
   "note": "against an independent semantics in the segmented address space"
  },
  {
   "property": "C16",
   "status": "proved",
   "theorems": [
    "C16_far_copy_rejected",
    "C16_far_item_rejected",
    "C16_far_rejected"
   ],
   "note": "every getter, list items, and the copy"
  },
  {
   "property": "C17",
   "status": "proved",
   "theorems": [
    "C17_big_list_refuted",
    "C17_copy_value"
   ],
   "note": "limits of the pure-Python builder are a hypothesis, shown necessary by C17_big_list_refuted"
  },
  {
   "property": "C18",
   "status": "proved",
   "theorems": [
    "C18_copy_only_appends"
   ],
   "note": "for any source bytes and pointer, well-formed or hostile"
  },
  {
   "property": "C19",
   "status": "proved",
   "theorems": [
    "C19_compact",
    "C19_reachable_aligned"
   ],
   "note": "every object reachable from a loaded message of at most 2^32 bytes is aligned"
  },
  {
   "property": "C20",
   "status": "proved",
   "theorems": [
    "C20_compact_is_compact",
    "C20_compact_is_compact_refuted",
    "C20_ctor_is_compact",
    "C20_ctor_no_gaps",
    "C20_ctor_order_refuted",
    "C20_new_is_compact",
    "C20_plain_slots",
    "C20_slack_refuted"
   ],
   "note": "compact() and the generated constructors (Cls(..) and new_foo) for arguments without empty structs and unused words, the constructors for calls that fill the pointers in slot order; refuted for empty child structs, for struct lists with unused words, and for a union whose members share a pointer with a later field in between"
  },
  {
   "property": "C21",
   "status": "proved",
   "theorems": [
    "C21_canonical",
    "C21_idempotent"
   ],
   "note": "the returned objects are equal, bytes included"
  },
  {
   "property": "C22",
   "status": "proved",
   "theorems": [
    "C22_compact_self_contained",
    "C22_slack_refuted"
   ],
   "note": "objects without unused words in struct lists; refuted with them"
  },
  {
   "property": "C23",
   "status": "proved",
   "theorems": [
    "C23_dumps_loads",
    "C23_empty_root_refuted"
   ],
   "note": "with the two exceptions of the fast path, both refuted"
  },
  {
   "property": "C24",
   "status": "proved",
   "theorems": [
    "C24_one_message"
   ],
   "note": ""
  },
  {
   "property": "C25",
   "status": "proved",
   "theorems": [
    "C25_copy_terminates",
    "C25_cyclic_refuted"
   ],
   "note": "well-formed objects; refuted for cyclic messages"
  },
  {
   "property": "C26",
   "status": "proved",
   "theorems": [
    "C26_builders_agree"
   ],
   "note": "in-bounds histories of writes, allocations, texts and deep copies; C longs unbounded, PyByteArray_Resize never fails"
  },
  {
   "property": "C27",
   "status": "proved",
   "theorems": [
    "C27_beyond_data",
    "C27_beyond_pointers",
    "C27_larger",
    "C27_padding"
   ],
   "note": "object padding, missing sections and larger sections, at any depth; queries whose types fit the data"
  },
  {
   "property": "C28",
   "status": "proved",
   "theorems": [
    "C28_same_value",
    "C28_value_unique"
   ],
   "note": "all access chains of the query language; an object has one value"
  },
  {
   "property": "C29",
   "status": "proved",
   "theorems": [
    "C29_big_enum_refuted",
    "C29_builder_refuted",
    "C29_constructor",
    "C29_float_default_refuted",
    "C29_group_name_clash_refuted",
    "C29_out_of_range_refused",
    "C29_pos_refuted",
    "C29_scalars",
    "C29_self_refuted",
    "C29_unknown_keyword"
   ],
   "note": "pure-Python mode; C29_constructor covers every kind of field at any depth of groups; the hypotheses on names and defaults are necessary: C29_*_refuted"
  },
  {
   "property": "C30",
   "status": "proved",
   "theorems": [
    "C30_bools",
    "C30_non_bool_refuted"
   ],
   "note": "values True/False (or 0/1); any other int is C30_non_bool_refuted"
  },
  {
   "property": "C31",
   "status": "proved",
   "theorems": [
    "C31_anypointer_refuted",
    "C31_pointers"
   ],
   "note": "struct arguments: word-aligned objects within the copy limits (C17); AnyPointer: C31_anypointer_refuted"
  },
  {
   "property": "C32",
   "status": "proved",
   "theorems": [
    "C32_anonymous_refuted",
    "C32_new_foo",
    "C32_new_foo_nested_refuted",
    "C32_one_member",
    "C32_two_members"
   ],
   "note": "name clashes: C32_anonymous_refuted, C32_new_foo_nested_refuted"
  },
  {
   "property": "C33",
   "status": "proved",
   "theorems": [
    "C33_convert_case_refuted",
    "C33_name_clash_refuted",
    "C33_nullable"
   ],
   "note": "convert_case=False: C33_convert_case_refuted; name clash: C33_name_clash_refuted"
  },
  {
   "property": "C34",
   "status": "proved",
   "theorems": [
    "C34_empty_struct",
    "C34_get",
    "C34_has",
    "C34_union_refuted"
   ],
   "note": "has: objects with a value; get: any bytes; members of unions: C34_union_refuted"
  },
  {
   "property": "C35",
   "status": "proved",
   "theorems": [
    "C35_index",
    "C35_items",
    "C35_iter",
    "C35_malformed_refuted",
    "C35_reverse",
    "C35_slice",
    "C35_slice_step"
   ],
   "note": "for lists whose items can all be read; malformed lists: C35_malformed_refuted"
  },
  {
   "property": "C36",
   "status": "proved",
   "theorems": [
    "C36_bool_list_refuted",
    "C36_lists",
    "C36_nested_none_refuted"
   ],
   "note": "lists of bool refused: C36_bool_list_refuted; None in a list of lists: C36_nested_none_refuted"
  },
  {
   "property": "C37",
   "status": "proved",
   "theorems": [
    "C37_canonical_iff",
    "C37_equal_means_true",
    "C37_floats_refuted",
    "C37_no_floats",
    "C37_non_compact_refuted",
    "C37_padding_refuted",
    "C37_python_list",
    "C37_structs_refused",
    "C37_true_means_equal"
   ],
   "note": "two capnpy lists in the canonical layout: True iff equal values (soundness also for any compact layout); comparison with Python lists, by Python's == of the items, for every layout and nesting; refuted for padding garbage, for lists that are not compact, and for floats (two capnpy lists compare the bytes: nan equal to itself, 0.0 and -0.0 differ): C37_*_refuted; identity of inner item types (lists of lists): C71"
  },
  {
   "property": "C38",
   "status": "proved",
   "theorems": [
    "C38_hash_data",
    "C38_inthash",
    "C38_longhash",
    "C38_strhash",
    "C38_strhash_overread_refuted",
    "C38_tuplehash"
   ],
   "note": "Python 3.8+ hashes; the hash of a stretch of bytes that ends outside of the buffer is C38_strhash_overread_refuted (unreachable from well-formed messages: C38_hash_data)"
  },
  {
   "property": "C39",
   "status": "proved",
   "theorems": [
    "C39_equal_hash",
    "C39_equality",
    "C39_fast_hash",
    "C39_list_hash_refuted",
    "C39_nan",
    "C39_null_unicode_hash_refuted",
    "C39_struct_is_its_tuple"
   ],
   "note": "keys of None, ints, bools, floats (as dyadic rationals, inf, nan), bytes, text, lists, nested keyed structs and tuples; null unicode texts hash differently in the compiled mode: C39_null_unicode_hash_refuted; lists in keys: C39_list_hash_refuted"
  },
  {
   "property": "C40",
   "status": "proved",
   "theorems": [
    "C40_attribute",
    "C40_declared",
    "C40_getter",
    "C40_member_called_name_refuted",
    "C40_str",
    "C40_unknown",
    "C40_wire_negative_refuted"
   ],
   "note": "non-negative values and values below -len; wire values >= 0x8000 are C40_wire_negative_refuted, a member called `name` is C40_member_called_name_refuted"
  },
  {
   "property": "C41",
   "status": "proved",
   "theorems": [
    "C41_combine",
    "C41_nearest_wins"
   ],
   "note": "the mutation of extra_annotations by has_annotation is not modelled"
  },
  {
   "property": "C42",
   "status": "proved",
   "theorems": [
    "C42_camel_words",
    "C42_distinct",
    "C42_exact",
    "C42_idempotent",
    "C42_injective_refuted",
    "C42_mangle",
    "C42_only_inserts",
    "C42_same_letters"
   ],
   "note": "ASCII identifiers; injectivity fails: C42_injective_refuted"
  },
  {
   "property": "C43",
   "status": "proved",
   "theorems": [
    "C43_pickle",
    "C43_reachable"
   ],
   "note": "pickle and marshal themselves are assumed faithful on tuples of bytes and ints"
  },
  {
   "property": "C44",
   "status": "proved",
   "theorems": [
    "C44_accessors",
    "C44_far_pointers",
    "C44_far_refuted",
    "C44_kind",
    "C44_null_refuted"
   ],
   "note": "predicates for direct pointers, accessors for all pointers; behind far pointers the predicates always say no (proved, and refuted as a property), is_struct() is true for null (refuted)"
  },
  {
   "property": "C45",
   "status": "proved",
   "theorems": [
    "C45_duplicates",
    "C45_void_group",
    "C45_void_group_refuted"
   ],
   "note": "the names of the constructor's parameters; clashes of local variables are C29_group_name_clash_refuted"
  },
  {
   "property": "C46",
   "status": "proved",
   "theorems": [
    "C46_compiled_dumps",
    "C46_compiled_tame",
    "C46_compiled_well_formed",
    "C46_dirty_memory_refuted",
    "C46_far_outside_refuted",
    "C46_heap_overflow_refuted",
    "C46_negative_offset_refuted",
    "C46_python_frame",
    "C46_well_formed_tame"
   ],
   "note": "Python: any bytes; compiled: any source without the two hostile shapes (C46_compiled_tame, C46_compiled_dumps), which are refuted (heap overflow, dirty memory, out-of-bounds read); compiled copies read far pointers with the compiled reader: on a landing pad outside of the buffer they make an empty struct where Python raises IndexError (C46_far_outside_refuted)"
  },
  {
   "property": "C47",
   "status": "proved",
   "theorems": [
    "C47_decode_cut",
    "C47_decode_is_load_all",
    "C47_decode_refuted",
    "C47_null_root"
   ],
   "note": "the exit status part is refuted in full generality: C47_decode_refuted, C47_decode_cut"
  },
  {
   "property": "C48",
   "status": "proved",
   "theorems": [
    "C48_adapter_read",
    "C48_adapter_readline_refuted"
   ],
   "note": "readline: C48_adapter_readline_refuted, for every file"
  },
  {
   "property": "C49",
   "status": "proved",
   "theorems": [
    "C49_no_overread"
   ],
   "note": ""
  },
  {
   "property": "C50",
   "status": "proved",
   "theorems": [
    "C50_accessors",
    "C50_clashes_refuted",
    "C50_hides",
    "C50_hides_private",
    "C50_property_refuted"
   ],
   "note": "for class bodies without clashes (no_clash, each clause shown necessary); the clashes are refuted by C50_property_refuted, C50_clashes_refuted"
  },
  {
   "property": "C51",
   "status": "proved",
   "theorems": [
    "C51_annotation_refuted",
    "C51_defined",
    "C51_injective",
    "C51_keyword_refuted",
    "C51_keywords",
    "C51_reserved"
   ],
   "note": "for annotations at the top of the file; refuted otherwise (C51_annotation_refuted) and for keywords (C51_keyword_refuted)"
  },
  {
   "property": "C52",
   "status": "proved",
   "theorems": [
    "C52_clash",
    "C52_clash_refuted",
    "C52_distinct",
    "C52_exact",
    "C52_identifier"
   ],
   "note": "failure condition exact"
  },
  {
   "property": "C53",
   "status": "proved",
   "theorems": [
    "C53_basename",
    "C53_cache",
    "C53_cycle_refuted",
    "C53_exact",
    "C53_failure",
    "C53_filename",
    "C53_imports",
    "C53_join",
    "C53_modname",
    "C53_names_refuted",
    "C53_one_argument",
    "C53_options",
    "C53_options_refuted",
    "C53_py_sys",
    "C53_pyx",
    "C53_same_module",
    "C53_search",
    "C53_sources"
   ],
   "note": "loading in Python mode: exact condition; in pyx mode: sufficient condition; the rest refuted by C53_cycle_refuted, C53_options_refuted, C53_names_refuted"
  },
  {
   "property": "C54",
   "status": "proved",
   "theorems": [
    "C54_again",
    "C54_current",
    "C54_failure",
    "C54_stale_refuted"
   ],
   "note": "for the histories described by plain; each other kind of history refuted by C54_stale_refuted"
  },
  {
   "property": "C55",
   "status": "proved",
   "theorems": [
    "C55_compact",
    "C55_dumps_loads",
    "C55_faithful",
    "C55_roundtrip",
    "C55_roundtrip_refuted",
    "C55_total_refuted",
    "C55_unknown_tag_refuted",
    "C55_value"
   ],
   "note": "for values that have the shape the schema says; reading back for clean values, the others refuted by C55_roundtrip_refuted, C55_total_refuted, C55_unknown_tag_refuted"
  },
  {
   "property": "C56",
   "status": "proved",
   "theorems": [
    "C56_data",
    "C56_text",
    "C56_text_refuted"
   ],
   "note": "exact for texts (iff), all bytes for data"
  },
  {
   "property": "C57",
   "status": "proved",
   "theorems": [
    "C57_decode_encode",
    "C57_encode_decode",
    "C57_errors",
    "C57_field"
   ],
   "note": "CPython 3 strict codec"
  },
  {
   "property": "C58",
   "status": "proved",
   "theorems": [
    "C58_bounds_refuted",
    "C58_data",
    "C58_item",
    "C58_list",
    "C58_negative_refuted",
    "C58_no_fault",
    "C58_overflow_refuted",
    "C58_scalar",
    "C58_struct",
    "C58_walk",
    "C58_which",
    "C58_which_refuted"
   ],
   "note": "agreement wherever the pure library answers; the differences elsewhere are exact (differ, C58_which) and witnessed by the _refuted theorems"
  },
  {
   "property": "C59",
   "status": "proved",
   "theorems": [
    "C59_file",
    "C59_file_only",
    "C59_file_refuted",
    "C59_loads",
    "C59_loads_only",
    "C59_root_refuted",
    "C59_truncated_refuted"
   ],
   "note": "messages below 2 GiB; both directions; what is accepted wrongly: C59_truncated_refuted, C59_file_refuted, C59_root_refuted"
  },
  {
   "property": "C60",
   "status": "proved",
   "theorems": [
    "C60_capability_refuted",
    "C60_dumps",
    "C60_is_compact",
    "C60_roundtrip"
   ],
   "note": "capability pointers: C60_capability_refuted"
  },
  {
   "property": "C61",
   "status": "proved",
   "theorems": [
    "C61_constant",
    "C61_constants_of_a_file",
    "C61_infinity_refuted",
    "C61_interface_refuted",
    "C61_later_struct_refuted",
    "C61_list_without_reflection_refuted",
    "C61_no_reflection_refuted",
    "C61_shadowed_refuted"
   ],
   "note": "whole files without Cython (C61_constants_of_a_file); single constants in both modes (C61_constant). What does not work: the _refuted theorems"
  },
  {
   "property": "C62",
   "status": "proved",
   "theorems": [
    "C62_item_type",
    "C62_nested_import_refuted",
    "C62_no_item_type"
   ],
   "note": "both modes; nested imports without Cython: C62_nested_import_refuted"
  },
  {
   "property": "C63",
   "status": "proved",
   "theorems": [
    "C63_embedded_object",
    "C63_reflection_data"
   ],
   "note": "the text of any object in both modes; whole files without Cython"
  },
  {
   "property": "C64",
   "status": "proved",
   "theorems": [
    "C64_downgrade_shifted",
    "C64_list_downgrade_refuted",
    "C64_list_upgrade_refuted",
    "C64_texts_from_structs",
    "C64_upgrade_reads_neighbours"
   ],
   "note": "upgrade and downgrade refuted for all lists; what works is proved; buffers above 1 MiB: C64_upgrade_reads_neighbours"
  },
  {
   "property": "C65",
   "status": "proved",
   "theorems": [
    "C65_annotation_present",
    "C65_first_annotation",
    "C65_reflection_answers",
    "C65_reflection_broken",
    "C65_second_registration_refuted"
   ],
   "note": "reflection: all sequences of calls; compiler: all histories. Building the ModuleGenerator is a parameter (its result or its exception)."
  },
  {
   "property": "C66",
   "status": "proved",
   "theorems": [
    "C66_group_errors",
    "C66_group_view",
    "C66_groups_made",
    "C66_hash_dependent_refuted",
    "C66_key_fields",
    "C66_key_star",
    "C66_key_tuple",
    "C66_one_spelling",
    "C66_union_members_refuted"
   ],
   "note": "union members and hash clashes: C66_union_members_refuted, C66_hash_dependent_refuted. Copying the schema fields into the new node is taken as the identity (see C18, C29)."
  },
  {
   "property": "C67",
   "status": "proved",
   "theorems": [
    "C67_header_same",
    "C67_header_sign",
    "C67_pack_int64",
    "C67_pack_into_negative_refuted",
    "C67_pack_into_overflow_refuted",
    "C67_pack_into_refused",
    "C67_pack_into_same",
    "C67_unpack_large",
    "C67_unpack_overflow_refuted",
    "C67_unpack_same",
    "C67_unpack_typed"
   ],
   "note": "overflow near 2^31, swallowed errors and negative offsets are separate theorems (_refuted, C67_unpack_typed). Floats: as unsigned integers of the same size."
  },
  {
   "property": "C68",
   "status": "proved",
   "theorems": [
    "C68_effective",
    "C68_flags",
    "C68_flags_refused",
    "C68_from_dict",
    "C68_from_dict_refused",
    "C68_header",
    "C68_options_object",
    "C68_schema_version_check_refuted",
    "C68_setup",
    "C68_version_check"
   ],
   "note": "docopt and setuptools themselves are not modelled; the schema's versionCheck: C68_schema_version_check_refuted."
  },
  {
   "property": "C69",
   "status": "proved",
   "theorems": [
    "C69_extend_cython",
    "C69_extend_python",
    "C69_extend_refused",
    "C69_load_schema",
    "C69_neighbour_refuted",
    "C69_special_refuted",
    "C69_standalone",
    "C69_standalone_none"
   ],
   "note": "C69_special_refuted (special methods of Python 3 only), C69_neighbour_refuted. CPython's attribute cache is not modelled."
  },
  {
   "property": "C70",
   "status": "proved",
   "theorems": [
    "C70_as_list",
    "C70_from_type",
    "C70_refused"
   ],
   "note": "objects are addresses handed out by an allocator; the list itself is read as in C35."
  },
  {
   "property": "C71",
   "status": "proved",
   "theorems": [
    "C71_equal",
    "C71_lists_of_lists_refuted",
    "C71_read_twice",
    "C71_same_bytes"
   ],
   "note": "the exact set of element types is `shared`; the failing side is C71_lists_of_lists_refuted."
  },
  {
   "property": "C72",
   "status": "proved",
   "theorems": [
    "C72_accepted",
    "C72_exact",
    "C72_nullable_union_refuted",
    "C72_refused"
   ],
   "note": "constants (C62), $Py.group (C66) and imports (C52) are other properties; C72_nullable_union_refuted: accepted, never readable; C72_exact excludes groups as flags (Example C72_group_flag)."
  },
  {
   "property": "C73",
   "status": "proved",
   "theorems": [
    "C73_bools",
    "C73_exact",
    "C73_fields",
    "C73_int_to_float32_refuted",
    "C73_integers",
    "C73_lists",
    "C73_read",
    "C73_refused",
    "C73_unique"
   ],
   "note": "pure-Python mode; IEEE binary64/binary32 and CPython's conversions are modelled on bit patterns (FloatBits.v, tested against CPython on 1200 values); the payload of a nan is not. C73_int_to_float32_refuted: double rounding."
  },
  {
   "property": "C74",
   "status": "proved",
   "theorems": [
    "C74_bool_truth_refuted",
    "C74_bool_write",
    "C74_float_refused",
    "C74_inline_overflow_refuted",
    "C74_new_foo",
    "C74_out_of_range_refused",
    "C74_reserved_names_refuted",
    "C74_same_object",
    "C74_two_members",
    "C74_unknown_keyword"
   ],
   "note": "the statements of the generated constructor (Ctor.v) executed with the compiled builder (BuilderC.v) and the compiled _copy_list.py/_copy_pointer.py; C integers of the pointer arithmetic as in C05/C70; the items of a capnpy List given as argument are read as in pure-Python mode; the conversion of a Python float to a C integer is a parameter (it depends on the version of Cython). Differences: C74_*_refuted."
  },
  {
   "property": "C75",
   "status": "proved",
   "theorems": [
    "C75_any_pointer",
    "C75_blowup_refuted",
    "C75_copies",
    "C75_field_values",
    "C75_fields",
    "C75_items",
    "C75_iteration",
    "C75_len_refuted",
    "C75_loads"
   ],
   "note": "pure-Python mode with assertions enabled (compiled mode: C70, C71); the UnicodeDecodeError of a Text field read as unicode is a ValueError, not modelled; the recursion limit is the error OutOfFuel. No bound on time or memory: C75_len_refuted, C75_blowup_refuted."
  },
  {
   "property": "C76",
   "status": "proved",
   "theorems": [
    "C76_accepts",
    "C76_copy"
   ],
   "note": "pure-Python mode (by C74 the compiled constructors build the same object); lists of structs and of lists are covered by C76_copy when the call is accepted, C76_accepts is for voids, numbers, texts."
  },
  {
   "property": "C77",
   "status": "proved",
   "theorems": [
    "C77_applies",
    "C77_end_to_end",
    "C77_exact",
    "C77_nullable_refused",
    "C77_read",
    "C77_refused",
    "C77_schema_layouts",
    "C77_schema_text",
    "C77_sound"
   ],
   "note": "pure-Python mode; $Py.group and $Py.key and the computation of options are in C51/C52/C56 and not repeated here: convert_case is given by node and field. C77_schema_layouts and C77_schema_text are about the 20 classes of schema.py and annotate.py, whose text is extracted by tools/gen_schemapy.py."
  },
  {
   "property": "C78",
   "status": "proved",
   "theorems": [
    "C78_faithful",
    "C78_lines",
    "C78_not_compact",
    "C78_not_human",
    "C78_object",
    "C78_out_of_range",
    "C78_unambiguous"
   ],
   "note": "The colours (pypytools, not part of the repository) and the texts of doubles are parameters; the colour codes of addresses are assumed to have the same length, and the columns are aligned accordingly. Python 3. Lines printed before an exception are not kept."
  },
  {
   "property": "C79",
   "status": "proved",
   "theorems": [
    "C79_input_overwritten_refuted",
    "C79_not_capnp",
    "C79_version",
    "C79_version_unknown"
   ],
   "note": "The processes, the existing directories, the generator with loads() (see C77, C68, C61) and the C compiler are parameters. packaging.version.Version is not part of the repository: releases N.N...N and N.N...N-dev are modelled after PEP 440, other version texts are a parameter. A crash while the output is written is not modelled here (C54 has it for distutils)."
  },
  {
   "property": "C80",
   "status": "proved",
   "theorems": [
    "C80_get_method",
    "C80_getter",
    "C80_group",
    "C80_has",
    "C80_is",
    "C80_nullable",
    "C80_slot_reads"
   ],
   "note": "PySyntax.v and PyRun.v specify the part of Python that the generated code uses (tokens, logical lines and indentation, expressions, assignments, if, return, raise, def with decorators), independently of capnpy; GenRun.v gives the methods of the runtime by the functions of the model. Names of fields are Python identifiers (see C61 for how they are chosen) and no method hides a method of Struct (hypothesis keeps). str() of floats is a parameter, its text must be that of a float literal with the same bits. Text fields with the unicode option (the same text with _read_text_unicode) and the pyx variants are not covered here."
  },
  {
   "property": "C81",
   "status": "proved",
   "theorems": [
    "C81_float_inf_refuted",
    "C81_group",
    "C81_group_none_refuted",
    "C81_group_reads",
    "C81_init",
    "C81_new_union",
    "C81_reads",
    "C81_roundtrip"
   ],
   "note": "C81_init, C81_new_union, C81_group: a call of the text read as Python is the call of the model of the constructor (C29, C31, C32 say what that does), for any positional and keyword arguments; C81_roundtrip puts both together with the text of the properties. Hypotheses: names are Python identifiers other than keywords, the parameters of one function are distinct, self (and cls, in a struct with a union) is not the name of a field, names of classes refer to the classes they are meant to. C81_group_none_refuted and C81_float_inf_refuted: schemas whose text cannot be loaded."
  },
  {
   "property": "C82",
   "status": "proved",
   "theorems": [
    "C82_constructors",
    "C82_group",
    "C82_group_constructor",
    "C82_is",
    "C82_nullable",
    "C82_reads",
    "C82_roundtrip",
    "C82_same_name_refuted",
    "C82_slot"
   ],
   "note": "One hypothesis, from_text (the body of the class contains what is read from its text), instead of one per method as in C80 and C81. C82_same_name_refuted: hasX and x. The model of the text was compared with all 36 classes of schema.py and annotate.py, word for word, by vm_compute (ClassSamples.schema_texts; SchemaText.v is written by tools/gen_schematext.py). shortrepr, the constants of the class and the methods of $Py.key are not part of the text; they may define other names."
  },
  {
   "property": "C83",
   "status": "proved",
   "theorems": [
    "C83_key",
    "C83_no_fields_refuted",
    "C83_nullable_key_refuted",
    "C83_reads"
   ],
   "note": "The text is read with the grammar of C80 and run by GenRun; C83_key compares it with key_tuple, the direct model of C18 and C50. Keys of structs, AnyPointers and groups are outside (the value of the model for them is not an item of a tuple). Refuted: C83_no_fields_refuted (`$Py.key('*')` without fields is a SyntaxError), C83_nullable_key_refuted (AttributeError from obj.key)."
  },
  {
   "property": "C84",
   "status": "proved",
   "theorems": [
    "C84_reads",
    "C84_shortrepr"
   ],
   "note": "C84_reads: the text is read with the grammar of C80. C84_shortrepr: run by ReprRun, it is Repr.shortrepr. The accessors obj.x, get_x, has_x and is_x are those of the model (their own text is C80), lists and floats are printed by the functions of Repr.v; no two accessors of a class may have the same name (x :Text and getX would). schema_reprs compares the model of the text with the 36 classes of schema.py and annotate.py word for word."
  },
  {
   "property": "C85",
   "status": "proved",
   "theorems": [
    "C85_annotate",
    "C85_empty_enum_refuted",
    "C85_hidden_type_refuted",
    "C85_reads",
    "C85_runs",
    "C85_schema",
    "C85_version"
   ],
   "note": "C85_reads: the text of the module, read with a grammar of class statements, imports and assignments on top of that of C80-C84. C85_runs: what the statements do (PyModuleRun.v: namespaces of modules and classes, fill_enum, __extend__, item types); holds and constant_is (ModuleSpec.v) say what each node must have. C85_version: the check of the version. Outside: imports of other schemas, interfaces, reflection data in several segments, an _extended module, constants whose values are calls (structs, enums: their text is C61). C85_schema, C85_annotate: the same of the texts of capnpy/schema.py and annotate.py, word for word. Refuted: an enum without members is a SyntaxError (C85_empty_enum_refuted); a nested type G is hidden by the constructor of a group g (C85_hidden_type_refuted)."
  }
 ]
}