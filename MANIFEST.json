{
 "claims": [
  {
   "property": "C01",
   "status": "proved",
   "theorems": [
    "C01_text_slice"
   ],
   "note": ""
  },
  {
   "property": "C02",
   "status": "proved",
   "theorems": [
    "C02_text_pair"
   ],
   "note": ""
  },
  {
   "property": "C03",
   "status": "proved",
   "theorems": [
    "C03_span_slice",
    "C03_span_to"
   ],
   "note": ""
  },
  {
   "property": "C04",
   "status": "partial",
   "theorems": [
    "C04_span_int_partial",
    "C04_span_int_below",
    "C04_span_int_above",
    "C04_span_int_refuted"
   ],
   "note": "Exact inside the range; outside it the code returns a character outside the span instead of raising IndexError (refuted by a witness)."
  },
  {
   "property": "C05",
   "status": "proved",
   "theorems": [
    "C05_covered_by",
    "C05_intersected_by",
    "C05_intersected_sym",
    "C05_covered_refl",
    "C05_covered_trans",
    "C05_tuple_forms",
    "C05_covered_empty"
   ],
   "note": ""
  },
  {
   "property": "C06",
   "status": "partial",
   "theorems": [
    "C06_trim_partial",
    "C06_trim_refuted",
    "C06_leading"
   ],
   "note": "trim only drops whitespace and always clears the leading side; the trailing side is cleared only if there was no leading whitespace (the code uses elif), refuted by a witness."
  },
  {
   "property": "C07",
   "status": "proved",
   "theorems": [
    "C07_segmentation",
    "C07_offset_ids"
   ],
   "note": ""
  },
  {
   "property": "C08",
   "status": "partial",
   "theorems": [
    "C08_history_partial",
    "C08_outcomes",
    "C08_reachable_consistent",
    "C08_add_bound_refuted"
   ],
   "note": "All histories of 16 kinds of calls, including raising ones. Excluded: positional add of a node that is already bound (corrupts the layer, refuted by a witness) and retain on a gapped layer or with foreign nodes (C15)."
  },
  {
   "property": "C09",
   "status": "proved",
   "theorems": [
    "C09_membership",
    "C09_position"
   ],
   "note": ""
  },
  {
   "property": "C10",
   "status": "proved",
   "theorems": [
    "C10_neighbours"
   ],
   "note": ""
  },
  {
   "property": "C11",
   "status": "proved",
   "theorems": [
    "C11_node_spans"
   ],
   "note": ""
  },
  {
   "property": "C12",
   "status": "partial",
   "theorems": [
    "C12_remove_one_partial",
    "C12_remove_many_partial",
    "C12_error_kind_refuted",
    "C12_error",
    "C12_error_many"
   ],
   "note": "Everything but the exception class: for a dangling node that has fields the error message itself raises AttributeError (witness); C12_error and C12_error_many say exactly when."
  },
  {
   "property": "C13",
   "status": "partial",
   "theorems": [
    "C13_compact",
    "C13_compile",
    "C13_gaps_after_remove",
    "C13_gaps_after_remove_many",
    "C13_gap_bound_refuted"
   ],
   "note": "Invisibility is proved in full. The gap bound holds after every successful remove; as a state invariant it is false (witness: add after remove on a small layer)."
  },
  {
   "property": "C14",
   "status": "proved",
   "theorems": [
    "C14_sort",
    "C14_sort_raises"
   ],
   "note": ""
  },
  {
   "property": "C15",
   "status": "partial",
   "theorems": [
    "C15_retain_partial",
    "C15_gap_refuted",
    "C15_gap",
    "C15_foreign"
   ],
   "note": "Layers without gaps and nodes of the layer; with a gap retain always raises AttributeError and leaves the slots in exactly the state of C15_gap; with a foreign node it raises as in C15_foreign."
  },
  {
   "property": "C16",
   "status": "proved",
   "theorems": [
    "C16_add",
    "C16_add_valid"
   ],
   "note": ""
  },
  {
   "property": "C17",
   "status": "proved",
   "theorems": [
    "C17_add_many",
    "C17_validated_refuted"
   ],
   "note": "The refuted theorem concerns a stronger claim (accepted nodes are valid), false because validation precedes the filling of defaults."
  },
  {
   "property": "C18",
   "status": "proved",
   "theorems": [
    "C18_add_field",
    "C18_remove_field",
    "C18_add_then_remove",
    "C18_undeclared_refuted"
   ],
   "note": "add_field of a declared name raises TypeError and changes nothing. Restoration needs that no node has the undeclared key (witness otherwise)."
  },
  {
   "property": "C19",
   "status": "proved",
   "theorems": [
    "C19_scalar_ranges",
    "C19_is_valid",
    "C19_constructors",
    "C19_made"
   ],
   "note": ""
  },
  {
   "property": "C20",
   "status": "partial",
   "theorems": [
    "C20_validate_partial",
    "C20_exact",
    "C20_determined",
    "C20_false",
    "C20_returns_false_refuted"
   ],
   "note": "validate returns True exactly on valid nodes. It can return False instead of raising: a Node in a node-span field whose neighbours are in the target layer (witness). C20_exact gives the outcome (True, False or which exception) for every node of every layer, C20_false exactly when it is False."
  },
  {
   "property": "C21",
   "status": "proved",
   "theorems": [
    "C21_join",
    "C21_assoc",
    "C21_idem",
    "C21_fails",
    "C21_possible"
   ],
   "note": ""
  },
  {
   "property": "C55",
   "status": "partial",
   "theorems": [
    "C55_int_defaults",
    "C55_string_defaults",
    "C55_bool_defaults",
    "C55_float_default_lost_refuted",
    "C55_float_default_invalid_refuted",
    "C55_float_defaults"
   ],
   "note": "False for float64 (two witnesses)."
  },
  {
   "property": "C56",
   "status": "partial",
   "theorems": [
    "C56_typeof_partial",
    "C56_big_int_refuted"
   ],
   "note": "For ints in the 64-bit range and strings below 2^31; the witness is 2^63."
  },
  {
   "property": "C24",
   "status": "proved",
   "theorems": [
    "C24_round_trip",
    "C24_limits",
    "C24_prefix_free",
    "C24_shortest",
    "C24_stable",
    "C24_total"
   ],
   "note": "msgpack library modelled from its specification; values of extension types and non-string map keys are not built"
  },
  {
   "property": "C22",
   "status": "partial",
   "theorems": [
    "C22_compiled_partial",
    "C22_exact",
    "C22_refuted"
   ],
   "note": "Everything but one case: a Node in a node-span field is not refused (witness; it is written as the span of its neighbours). C22_exact: nodes with such a field are the only ones that are not valid."
  },
  {
   "property": "C23",
   "status": "partial",
   "theorems": [
    "C23_remove_layer_partial",
    "C23_nodespan_refuted",
    "C23_cascade_refuted",
    "C23_answer_refuted"
   ],
   "note": "Node span fields are not counted as references and cascading removes no field (witnesses); the answer is never True."
  },
  {
   "property": "C27",
   "status": "proved",
   "theorems": [
    "C27_encode_keeps",
    "C27_compile_keeps"
   ],
   "note": ""
  },
  {
   "property": "C25",
   "status": "proved",
   "theorems": [
    "C25_round_trip",
    "C25_encodes",
    "C25_options"
   ],
   "note": "Encoded bytes, followed by anything, decode in any program state to a document equal node by node; valid documents within the format limits are encoded whatever the options."
  },
  {
   "property": "C26",
   "status": "proved",
   "theorems": [
    "C26_stable",
    "C26_valid"
   ],
   "note": "Bytes of the decoded document are identical, with any encode options; the decoded document is valid."
  },
  {
   "property": "C28",
   "status": "proved",
   "theorems": [
    "C28_round_trip",
    "C28_encodes",
    "C28_msgpack",
    "C28_stable"
   ],
   "note": "At the level of encode_object / decode_object; the text of JSON is the subject of other properties (Model_JsonText.v)."
  },
  {
   "property": "C29",
   "status": "proved",
   "theorems": [
    "C29_lazy",
    "C29_document",
    "C29_pickle",
    "C29_foreign"
   ],
   "note": "Any sequence of calls; document(names) with fewer than all layers raises KeyError (modelled; example C29_case)."
  },
  {
   "property": "C30",
   "status": "proved",
   "theorems": [
    "C30_properties",
    "C30_texts_refuted"
   ],
   "note": "Projection of properties; texts(names) answers the empty dict for every document."
  },
  {
   "property": "C31",
   "status": "partial",
   "theorems": [
    "C31_own_partial",
    "C31_other_refuted",
    "C31_decoded_refuted"
   ],
   "note": "False of the code in general (two witnesses); holds when layer names are unique in the program and types have not been decoded."
  },
  {
   "property": "C32",
   "status": "proved",
   "theorems": [
    "C32_round_trip",
    "C32_documents",
    "C32_layout",
    "C32_writes",
    "C32_refuses_header",
    "C32_refuses_codec",
    "C32_refuses_advanced"
   ],
   "note": "Any block size, any pattern of flushes, any codec that its registered decompressor undoes (an explicit hypothesis; compression itself is not modelled)."
  },
  {
   "property": "C33",
   "status": "partial",
   "theorems": [
    "C33_access",
    "C33_any",
    "C33_readblock_refuted"
   ],
   "note": "Proved for every sequence of next, get and seek; false of the code when readblock or blocks is interleaved with next (witness)."
  },
  {
   "property": "C34",
   "status": "proved",
   "theorems": [
    "C34_truncated"
   ],
   "note": "Cut anywhere after the header: exactly the documents of the complete blocks are read."
  },
  {
   "property": "C39",
   "status": "proved",
   "theorems": [
    "C39_search",
    "C39_build_refuses",
    "C39_search_refuses",
    "C39_files"
   ],
   "note": "Python equality of keys (1 == True == 1.0, NaN equal to nothing) is specified with rationals; paths and pickling of an index are not modelled."
  },
  {
   "property": "C40",
   "status": "proved",
   "theorems": [
    "C40_order",
    "C40_documents",
    "C40_names",
    "C40_any"
   ],
   "note": "An archive is a list of members; tarfile and compression are not modelled. docformat is text, one %0wd conversion, text."
  },
  {
   "property": "C57",
   "status": "proved",
   "theorems": [
    "C57_registry"
   ],
   "note": "Every sequence of register, unregister and get operations."
  },
  {
   "property": "C35",
   "status": "proved",
   "theorems": [
    "C35_layout",
    "C35_exponent",
    "C35_unique"
   ],
   "note": "Every program of writes and splits; the layout determines the file up to the contents of the markers."
  },
  {
   "property": "C36",
   "status": "proved",
   "theorems": [
    "C36_markers",
    "C36_blocks"
   ],
   "note": "Markers against the latest split at or before them; the document writer splits after its header and after every block."
  },
  {
   "property": "C37",
   "status": "partial",
   "theorems": [
    "C37_read_partial",
    "C37_end_refuted",
    "C37_stop_refuted",
    "C37_gap_refuted"
   ],
   "note": "Proved for every sequence of reads, seeks and tells that stay on offsets where the code is exact (all below 2^(b+1)-5); false otherwise (three witnesses)."
  },
  {
   "property": "C38",
   "status": "proved",
   "theorems": [
    "C38_seek",
    "C38_tell_before_marker"
   ],
   "note": "Every offset; directly before a marker tell is four short, as the statement excepts."
  },
  {
   "property": "C41",
   "status": "proved",
   "theorems": [
    "C41_raises",
    "C41_order",
    "C41_nodes"
   ],
   "note": "Every child function whose reachable part is finite; with and without is_result."
  },
  {
   "property": "C42",
   "status": "proved",
   "theorems": [
    "C42_raises",
    "C42_order",
    "C42_nodes"
   ],
   "note": "Against an inductive recursive preorder."
  },
  {
   "property": "C43",
   "status": "proved",
   "theorems": [
    "C43_raises",
    "C43_order",
    "C43_nodes",
    "C43_only_refuted"
   ],
   "note": "Every childless reachable node once; only those on trees; a cyclic graph where a node with children is yielded."
  },
  {
   "property": "C44",
   "status": "partial",
   "theorems": [
    "C44_one",
    "C44_last_partial",
    "C44_refuses",
    "C44_children_refused",
    "C44_several_refuted",
    "C44_several"
   ],
   "note": "One field, any layer and node; several fields only if all but the last are empty; false otherwise (witness); C44_several says exactly which nodes are yielded."
  },
  {
   "property": "C45",
   "status": "proved",
   "theorems": [
    "C45_maps",
    "C45_refuses",
    "C45_no_text",
    "C45_raises",
    "C45_untouched",
    "C45_overlap"
   ],
   "note": "Sweep over mapping and remapped layer; hypotheses: layers without gaps in iteration, distinct ids, images in order inside the target text (image_fits). Outcome-independent frame theorem C45_untouched."
  },
  {
   "property": "C46",
   "status": "partial",
   "theorems": [
    "C46_intersect_partial",
    "C46_none_refuted"
   ],
   "note": "Exact content of every group for any iteration order of the sets. Missing: span fields holding None, which the docstring says are ignored; they raise AttributeError (C46_none_refuted)."
  },
  {
   "property": "C47",
   "status": "proved",
   "theorems": [
    "C47_cover",
    "C47_inside",
    "C47_empty"
   ],
   "note": "Cover keeps the intersecting nodes that lie inside; the empty-group filter is stated for every input and resolution."
  },
  {
   "property": "C48",
   "status": "proved",
   "theorems": [
    "C48_dominant",
    "C48_nodes",
    "C48_not_maximal"
   ],
   "note": "Segments with start <= stop, told apart by place in the list. C48_not_maximal records that a dropped segment may overlap nothing returned."
  },
  {
   "property": "C49",
   "status": "partial",
   "theorems": [
    "C49_safe_partial",
    "C49_exact_partial",
    "C49_window",
    "C49_start_refuted",
    "C49_stop_twice"
   ],
   "note": "Start offsets >= 0. A negative start can raise (C49_start_refuted); a negative stop is applied twice (C49_stop_twice)."
  },
  {
   "property": "C50",
   "status": "proved",
   "theorems": [
    "C50_layer",
    "C50_filter",
    "C50_and",
    "C50_or",
    "C50_not",
    "C50_nested",
    "C50_raises",
    "C50_update",
    "C50_numbers",
    "C50_equal_numbers",
    "C50_infinite",
    "C50_nan",
    "C50_strings",
    "C50_equal_strings",
    "C50_span_text",
    "C50_absent",
    "C50_any",
    "C50_any_numbers",
    "C50_spans",
    "C50_field",
    "C50_none",
    "C50_ordered",
    "C50_lists",
    "C50_nodes",
    "C50_any_lists",
    "C50_spans_refused",
    "C50_node_neq",
    "C50_any_text",
    "C50_query_field"
   ],
   "note": "Queries over layers, node spans, node lists and queries; comparisons of numbers against the IEEE value, strings lexicographically. C50_node_neq, C50_any_text, C50_query_field record surprising behaviour of the code."
  },
  {
   "property": "C51",
   "status": "partial",
   "theorems": [
    "C51_truncate_partial",
    "C51_unlimited",
    "C51_limits",
    "C51_setters",
    "C51_display_refuted",
    "C51_fraction_refuted",
    "C51_fits_refuted",
    "C51_max_columns"
   ],
   "note": "All texts and all settings reached by setter calls with whole numbers. Missing: max_display_width None (TypeError) and fractional limits (6.5), both refuted; a text within five characters of the limit is cut and may grow (C51_fits_refuted)."
  },
  {
   "property": "C52",
   "status": "proved",
   "theorems": [
    "C52_layout",
    "C52_rows",
    "C52_total",
    "C52_short_row",
    "C52_aligned",
    "C52_display_refuted",
    "C52_one_row"
   ],
   "note": "Blocks of columns, their lines, least widths, rows shown; C52_display_refuted: a block may exceed max_display_width by its last column."
  },
  {
   "property": "C53",
   "status": "proved",
   "theorems": [
    "C53_cell",
    "C53_plain",
    "C53_wikidata",
    "C53_wikipedia",
    "C53_escape",
    "C53_table",
    "C53_index_refuted",
    "C53_wikipedia_refuted"
   ],
   "note": "For arbitrary word-character test and lower(). Row names (TableRow.index) are not values and are not escaped (C53_index_refuted)."
  },
  {
   "property": "C54",
   "status": "proved",
   "theorems": [
    "C54_chars",
    "C54_legal",
    "C54_unchanged",
    "C54_twice",
    "C54_supplementary_refuted"
   ],
   "note": "All strings. The stated property leaves out characters above U+FFFF, which are legal in XML but become spaces (C54_supplementary_refuted)."
  },
  {
   "property": "C58",
   "status": "partial",
   "theorems": [
    "C58_shows",
    "C58_encodes_partial",
    "C58_keeps",
    "C58_binary_refuted",
    "C58_verbose_spans_refuted",
    "C58_illegal_refuted"
   ],
   "note": "Content of the tree proved in full for every document that is encoded; str() of floats is a parameter. Valid documents without binary values are encoded unless verbose_node_spans is set; three witnesses for what is false of the code."
  },
  {
   "property": "C59",
   "status": "partial",
   "theorems": [
    "C59_ids",
    "C59_unique",
    "C59_reference_refuted"
   ],
   "note": "Uniqueness in full; node span references lack the document id (witness)."
  },
  {
   "property": "C60",
   "status": "partial",
   "theorems": [
    "C60_accepts",
    "C60_fields_partial",
    "C60_conflict",
    "C60_given",
    "C60_others",
    "C60_int",
    "C60_slice",
    "C60_indices",
    "C60_merged_refuted",
    "C60_error_refuted"
   ],
   "note": "For any set order. Fields whose types have different names are missing from the list even if they can be merged (witness). Slices with step 1; the list is taken to own a copy of the field types."
  },
  {
   "property": "C61",
   "status": "partial",
   "theorems": [
    "C61_text",
    "C61_covers",
    "C61_two_texts_refuted",
    "C61_two_texts"
   ],
   "note": "In full for spans of one text; with two texts the answer is cut from the left text (witness)."
  },
  {
   "property": "C62",
   "status": "partial",
   "theorems": [
    "C62_ends",
    "C62_length",
    "C62_to_list",
    "C62_list_member_partial",
    "C62_layer_member_partial",
    "C62_validate",
    "C62_field_item",
    "C62_field_absent",
    "C62_member_refuted",
    "C62_validate_layer"
   ],
   "note": "All but membership in node spans and queries, which asks the field names (witness)."
  },
  {
   "property": "C63",
   "status": "partial",
   "theorems": [
    "C63_table",
    "C63_total_partial",
    "C63_span_index_partial",
    "C63_percent_refuted",
    "C63_double_percent_refuted",
    "C63_dangling_refuted",
    "C63_span_index_refuted"
   ],
   "note": "The table in full; success for names without a percent sign and values whose nodes are in layers (witnesses otherwise); row numbers of spans without gaps (witness otherwise). repr() of plain values is a parameter."
  },
  {
   "property": "C64",
   "status": "proved",
   "theorems": [
    "C64_value",
    "C64_value_total",
    "C64_node",
    "C64_node_total",
    "C64_node_dangling",
    "C64_document_total",
    "C64_document"
   ],
   "note": "For any iteration order of the set of layer names; repr() of plain values is a parameter."
  },
  {
   "property": "C65",
   "status": "partial",
   "theorems": [
    "C65_abspath",
    "C65_normal",
    "C65_relpath",
    "C65_spelling",
    "C65_files",
    "C65_no_hits",
    "C65_search_partial",
    "C65_cwd_refuted"
   ],
   "note": "Paths in full; the search for working directories that are the base directory (witness for others). POSIX paths without symbolic links."
  },
  {
   "property": "C66",
   "status": "partial",
   "theorems": [
    "C66_filter",
    "C66_directory_partial",
    "C66_compressed_refuted"
   ],
   "note": "The filter in full; the search when the building succeeds and in the base directory (C65); witness that a compressed file stops the building. Worker processes: any order of completion, no failures of the pool."
  },
  {
   "property": "C67",
   "status": "proved",
   "theorems": [
    "C67_loads",
    "C67_refuses",
    "C67_unique",
    "C67_bytes",
    "C67_ascii",
    "C67_dumps",
    "C67_round",
    "C67_form",
    "C67_surrogates_refuted",
    "C67_nan_refuted"
   ],
   "note": "CPython json with default arguments; float.__repr__ and float() are parameters with floats_ok (instance given). No limits on the digits of an int or the depth of nesting."
  },
  {
   "property": "C68",
   "status": "partial",
   "theorems": [
    "C68_round_partial",
    "C68_encodes",
    "C68_stable_partial",
    "C68_msgpack_partial",
    "C68_bytes",
    "C68_refuses"
   ],
   "note": "Documents without bytes, with the strings of C67; documents with bytes have no JSON text (C68_bytes)."
  },
  {
   "property": "C69",
   "status": "proved",
   "theorems": [
    "C69_writes",
    "C69_expressible",
    "C69_unique",
    "C69_error",
    "C69_form"
   ],
   "note": "The grammar has elements and attributes (no character data, comments, declarations of namespaces); ElementTree.write of CPython 3.9 or later."
  },
  {
   "property": "C70",
   "status": "partial",
   "theorems": [
    "C70_writes_partial",
    "C70_keeps",
    "C70_character_refuted",
    "C70_name_refuted",
    "C70_injected_refuted",
    "C70_checked_partial"
   ],
   "note": "Documents that XML can express (xml_doc_ok), without binary values and verbose node spans; witnesses for what is false of the code."
  },
  {
   "property": "C71",
   "status": "proved",
   "theorems": [
    "C71_valid",
    "C71_round_trip",
    "C71_references",
    "C71_dictionaries",
    "C71_reused_name_refuted",
    "C71_new_text_refuted"
   ],
   "note": "Programs with the calls of C08 on layers and nodes, and add_text, maintext, add_layer, remove_layer, props, encode. The conditions on the statements (fresh text and layer names, spans of own texts) and on the end state (settled) are in Spec_Program.v, with witnesses that they are needed (C22_refuted for node spans)."
  },
  {
   "property": "C72",
   "status": "proved",
   "theorems": [
    "C72_same",
    "C72_ends",
    "C72_blank_refuted"
   ],
   "note": "For printable names (Spec_Schema.v), with a witness that blanks in field names can hide; str() of option values is a parameter."
  },
  {
   "property": "C73",
   "status": "proved",
   "theorems": [
    "C73_calls",
    "C73_programs",
    "C73_documents",
    "C73_given_refuted"
   ],
   "note": "No condition on the calls but that the layers they are made on and the nodes they are given are in the part; a witness shows that given nodes matter (add steals a node)."
  },
  {
   "property": "C74",
   "status": "proved",
   "theorems": [
    "C74_copy",
    "C74_elsewhere",
    "C74_independent",
    "C74_again",
    "C74_refused"
   ],
   "note": "The protocol of pickle and copy (object.__reduce_ex__) is assumed; the properties are values in the model, so their independence is by construction of decode."
  },
  {
   "property": "C75",
   "status": "proved",
   "theorems": [
    "C75_outside",
    "C75_foreign",
    "C75_index",
    "C75_span",
    "C75_iter_span",
    "C75_stale_span",
    "C75_add",
    "C75_sort"
   ],
   "note": "Exception classes are values in the model; messages are not modelled but for the exceptions that making them raises."
  },
  {
   "property": "C76",
   "status": "proved",
   "theorems": [
    "C76_truncated",
    "C76_extends",
    "C76_sound",
    "C76_typed",
    "C76_untyped_refuted",
    "C76_exceptions",
    "C76_only_faults",
    "C76_faults",
    "C76_parts",
    "C76_magic",
    "C76_unknown_type",
    "C76_duplicate_field",
    "C76_special"
   ],
   "note": "Plain values are not checked against their types (C76_untyped_refuted). Shapes that the writer never makes and that Python would accept or refuse in ways outside the model (a layer name twice, names that are no strings, nested lists in plain columns, ext fields with nodes) give Unmodelled, which the theorems name."
  },
  {
   "property": "C77",
   "status": "proved",
   "theorems": [
    "C77_cell",
    "C77_round_trip",
    "C77_float",
    "C77_int_text",
    "C77_text_back",
    "C77_lossless_refuted"
   ],
   "note": "float(text), str(float), str of nodes and lists, int of text beyond ASCII or of more than 4300 characters and foreign objects are named by C77_cell as beyond the model. Encoding such values is not lossless: C77_lossless_refuted."
  },
  {
   "property": "C78",
   "status": "proved",
   "theorems": [
    "C78_format",
    "C78_unambiguous",
    "C78_packed",
    "C78_document"
   ],
   "note": "format written as a grammar from the MessagePack specification (Spec_Spell.v); extension values and map keys that are no strings are outside it, as the model does not build them"
  },
  {
   "property": "C79",
   "status": "proved",
   "theorems": [
    "C79_get",
    "C79_set",
    "C79_del",
    "C79_reserved_refuted",
    "C79_get_prop",
    "C79_chain",
    "C79_dangling",
    "C79_removed",
    "C79_number_refuted"
   ],
   "note": "names of the form __x__ are excepted because some of them are found on every object (C79_reserved_refuted); node.i does not raise for removed nodes although its documentation says so (C79_number_refuted)"
  },
  {
   "property": "C80",
   "status": "proved",
   "theorems": [
    "C80_ext",
    "C80_round_trip",
    "C80_once",
    "C80_failed"
   ],
   "note": "data is a field value; embedded data is bytes or a document"
  },
  {
   "property": "C81",
   "status": "partial",
   "theorems": [
    "C81_values",
    "C81_predicates",
    "C81_ge_refuted",
    "C81_types",
    "C81_spans",
    "C81_layers"
   ],
   "note": "the clause that fails of the code: a predicate with >= is shown with > (query.py 153-154, C81_ge_refuted), so predicates are told up to that; floats are not modelled"
  },
  {
   "property": "C82",
   "status": "proved",
   "theorems": [
    "C82_one_reading",
    "C82_opens",
    "C82_bad_name",
    "C82_reads",
    "C82_block",
    "C82_cut_document"
   ],
   "note": "values that msgpack gives as extension types or maps with byte strings as keys are outside the model (the exception is then Unmodelled); a decompression function is any function that raises or returns bytes"
  },
  {
   "property": "C83",
   "status": "partial",
   "theorems": [
    "C83_pair",
    "C83_pair_reach",
    "C83_pair_leaves_refuted",
    "C83_spans",
    "C83_span_hash_partial",
    "C83_span_hash_refuted",
    "C83_span_string_refuted",
    "C83_offsets",
    "C83_types",
    "C83_type_hash",
    "C83_type_hash_back",
    "C83_type_set",
    "C83_node_lists",
    "C83_no_string_option",
    "C83_span_option",
    "C83_named_types"
   ],
   "note": "equal spans of two texts hash differently, so the hash part is false of the code (witness); it is proved for spans of one text"
  },
  {
   "property": "C84",
   "status": "proved",
   "theorems": [
    "C84_one_outcome",
    "C84_build_search",
    "C84_unopened",
    "C84_number_missing",
    "C84_several",
    "C84_single"
   ],
   "note": "documents whose properties size is not an int are outside the model; a StopIteration leaving a generator is the RuntimeError of Python 3.7 and later"
  },
  {
   "property": "C85",
   "status": "proved",
   "theorems": [
    "C85_shows",
    "C85_number",
    "C85_string",
    "C85_binary"
   ],
   "note": "str of floats is a parameter; floats from text, integers from text beyond ASCII or 4300 characters and foreign objects are outside the model, as in C77"
  },
  {
   "property": "C86",
   "status": "proved",
   "theorems": [
    "C86_many",
    "C86_not_listed",
    "C86_all_values",
    "C86_node",
    "C86_nodespan",
    "C86_nodespan_xml",
    "C86_neighbours",
    "C86_first",
    "C86_no_nodespan",
    "C86_no_nodespan_xml",
    "C86_span",
    "C86_text_fails"
   ],
   "note": "a list with elements in a node span field puts nodes where XML needs strings: outside the model"
  },
  {
   "property": "C87",
   "status": "proved",
   "theorems": [
    "C87_same_file",
    "C87_single_bytes"
   ],
   "note": "counters of type long are unbounded in the model"
  },
  {
   "property": "C88",
   "status": "proved",
   "theorems": [
    "C88_read",
    "C88_hangs",
    "C88_length",
    "C88_length_refuted",
    "C88_skip_refuted",
    "C88_available",
    "C88_available_refuted"
   ],
   "note": "the refuted theorems show the faults of skip, available and computeLength(0, x)"
  },
  {
   "property": "C89",
   "status": "proved",
   "theorems": [
    "C89_same_bytes",
    "C89_is_file",
    "C89_empty",
    "C89_splits",
    "C89_marker_refuted"
   ],
   "note": "documents are byte arrays; the buffer of MessagePacker is modelled as: part of the header at once, the rest with the first block"
  },
  {
   "property": "C90",
   "status": "proved",
   "theorems": [
    "C90_read",
    "C90_python",
    "C90_unknown",
    "C90_block_size",
    "C90_own_codec",
    "C90_mixed"
   ],
   "note": "documents are byte arrays (nextRaw); DeflateCodec is any pair of functions that undo each other"
  },
  {
   "property": "C91",
   "status": "partial",
   "theorems": [
    "C91_against_python",
    "C91_dominant_partial",
    "C91_same",
    "C91_refuted",
    "C91_nodes",
    "C91_missing",
    "C91_nodespans",
    "C91_nodespans_missing"
   ],
   "note": "missing: the dominant right rule itself, false after a longer segment that lost (C91_refuted); exact otherwise"
  },
  {
   "property": "C92",
   "status": "proved",
   "theorems": [
    "C92_python",
    "C92_layers",
    "C92_intersect",
    "C92_cover",
    "C92_empty",
    "C92_builder",
    "C92_defaults",
    "C92_no_span",
    "C92_no_layer",
    "C92_field_refuted"
   ],
   "note": "layers are compared by identity; Java ints as integers (offsets of spans)"
  },
  {
   "property": "C93",
   "status": "partial",
   "theorems": [
    "C93_history",
    "C93_add",
    "C93_add_gap",
    "C93_add_refuted",
    "C93_clear"
   ],
   "note": "missing: add and clear on a layer with gaps, false of the code (C93_add_refuted, C93_clear); what happens then is stated exactly"
  },
  {
   "property": "C94",
   "status": "partial",
   "theorems": [
    "C94_reading",
    "C94_get",
    "C94_nodespan",
    "C94_sort",
    "C94_sort_refuted",
    "C94_retain",
    "C94_retain_nothing",
    "C94_retain_refuted"
   ],
   "note": "missing: consistency after sort and retainAll as a Collection defines it, both false of the code (C94_sort_refuted, C94_retain_refuted); both are characterised exactly"
  },
  {
   "property": "C95",
   "status": "partial",
   "theorems": [
    "C95_history",
    "C95_compile",
    "C95_outside",
    "C95_span",
    "C95_read",
    "C95_roundtrip",
    "C95_stale_refuted"
   ],
   "note": "missing: spans that come back after an encoding without them, false of the code (C95_stale_refuted); C95_compile says exactly what happens to them"
  },
  {
   "property": "C96",
   "status": "partial",
   "theorems": [
    "C96_reading",
    "C96_sub_refuted",
    "C96_order",
    "C96_intersects_refuted",
    "C96_equal",
    "C96_equal_texts",
    "C96_equal_ends",
    "C96_copy_refuted"
   ],
   "note": "missing: subSequence from a negative start, intersects of touching spans, equality of a copy, all false of the code (the three refuted theorems)"
  },
  {
   "property": "C97",
   "status": "partial",
   "theorems": [
    "C97_numbers",
    "C97_python",
    "C97_bytes",
    "C97_read",
    "C97_read_text",
    "C97_pairs",
    "C97_split_refuted",
    "C97_empty"
   ],
   "note": "missing: texts with spans that end inside a surrogate pair, false of the code (C97_split_refuted); msgpack-java is taken as documented"
  },
  {
   "property": "C98",
   "status": "proved",
   "theorems": [
    "C98_java_reads",
    "C98_names",
    "C98_all_refuted"
   ],
   "note": "msgpack-java is taken as documented; byte arrays in Java have fewer than 2^31 elements"
  },
  {
   "property": "C99",
   "status": "partial",
   "theorems": [
    "C99_python_reads",
    "C99_java_again",
    "C99_java_all_refuted",
    "C99_unchecked_refuted"
   ],
   "note": "extension values are outside the Python direction (not modelled there); that every document comes back to Java is false: witnesses in the refuted theorems"
  },
  {
   "property": "C100",
   "status": "proved",
   "theorems": [
    "C100_collects",
    "C100_outside",
    "C100_too_much",
    "C100_none",
    "C100_deflate",
    "C100_deflate_stuck",
    "C100_deflate_broken"
   ],
   "note": "All sequences of writes by invariant; java.util.zip is a parameter (any state, any step), so the theorems on DeflateCodec are about its loop only."
  },
  {
   "property": "C101",
   "status": "partial",
   "theorems": [
    "C101_compartments_partial",
    "C101_no_layers",
    "C101_together_fails",
    "C101_header",
    "C101_header_refused",
    "C101_layers_refuted"
   ],
   "note": "Proved for every written document; false of the code: layersCompartment holds only the first layer, a document without layers raises at the first call, and the constructor from compartments leaves out the header."
  },
  {
   "property": "C102",
   "status": "partial",
   "theorems": [
    "C102_builder",
    "C102_builder_refuses",
    "C102_empty_array",
    "C102_remove_text",
    "C102_remove_text_cascade",
    "C102_remove_layer",
    "C102_made_ok",
    "C102_made_again",
    "C102_made_declared",
    "C102_add_text",
    "C102_add_field",
    "C102_add_layer",
    "C102_add_node",
    "C102_remove_field",
    "C102_set_prop",
    "C102_no_layer",
    "C102_removed_refuted",
    "C102_replaced_refuted",
    "C102_put_refuted",
    "C102_put_get"
   ],
   "note": "Documents made by the validating operations are read back; remove does not remove the text or the layer, does not look at references to a layer, and a second layer of one name leaves dangling references (refuted with witnesses)."
  },
  {
   "property": "C103",
   "status": "proved",
   "theorems": [
    "C103_decoded",
    "C103_document",
    "C103_again",
    "C103_python",
    "C103_rounded",
    "C103_forward_refuted",
    "C103_named_refuted",
    "C103_number_refuted"
   ],
   "note": "The three refuted theorems show that the conditions of the second half are not ensured by decoding: a reversed span, a type naming no text (such a document cannot be written), and a property 2^64-1, which becomes the long -1 and then the int -1. Malformed UTF-8 is an error in the model, and two layers of one name are not modelled."
  },
  {
   "property": "C104",
   "status": "proved",
   "theorems": [
    "C104_extent",
    "C104_written",
    "C104_file"
   ],
   "note": ""
  },
  {
   "property": "C105",
   "status": "partial",
   "theorems": [
    "C105_written_read",
    "C105_document",
    "C105_many",
    "C105_cut",
    "C105_set",
    "C105_nothing",
    "C105_edits_kept",
    "C105_edits_lost",
    "C105_shown_refuted",
    "C105_job_file",
    "C105_job_documents",
    "C105_closed",
    "C105_input",
    "C105_input_cut",
    "C105_empty_refuted"
   ],
   "note": "Two parts are false of the code and refuted: a writable that has bytes writes these whatever is done with the document that getDocument shows (C105_edits_lost says exactly so for all calls; C105_shown_refuted is a witness), and the file of a task without documents cannot be opened (C105_empty_refuted, for every codec and block size). Documents that the Java port cannot read again are excluded, as in C99."
  },
  {
   "property": "C106",
   "status": "partial",
   "theorems": [
    "C106_text_of_number",
    "C106_number_of_text",
    "C106_int",
    "C106_long",
    "C106_double",
    "C106_truth",
    "C106_truth_of_double_refuted",
    "C106_truth_of_double",
    "C106_text_of_double_refuted",
    "C106_bytes",
    "C106_extension",
    "C106_node",
    "C106_nodes",
    "C106_span",
    "C106_nodespan",
    "C106_one_node",
    "C106_between",
    "C106_missing",
    "C106_own_bytes",
    "C106_own_span",
    "C106_own_nodespan",
    "C106_own_kind",
    "C106_own_numbers"
   ],
   "note": "Two parts are false of the code and refuted: boolValue of a DoubleValue is the opposite of that of the same whole number as IntValue (for every whole number up to 2^53; C106_truth_of_double says exactly when it is true), and stringValue of a DoubleValue is null. Double.parseDouble (doubleValue of texts) is not modelled."
  },
  {
   "property": "C107",
   "status": "partial",
   "theorems": [
    "C107_made",
    "C107_refused",
    "C107_array_or_list_refuted",
    "C107_equal",
    "C107_symmetric",
    "C107_transitive",
    "C107_content_refuted",
    "C107_hash",
    "C107_string_hash",
    "C107_bytes_hash",
    "C107_int_hash",
    "C107_long_hash",
    "C107_double_hash",
    "C107_written",
    "C107_bytes",
    "C107_bad_bytes",
    "C107_again",
    "C107_text",
    "C107_no_text"
   ],
   "note": "Two parts are false of the code and refuted: a list of nodes of several layers is accepted where the same nodes as an array are refused, and two extension values (spans, node arrays) with one content are not equal. Everything else is proved."
  },
  {
   "property": "C108",
   "status": "partial",
   "theorems": [
    "C108_shown",
    "C108_tells",
    "C108_cut",
    "C108_numbers",
    "C108_magic_refuted"
   ],
   "note": "One part is false of the code and refuted: the magic is printed, not checked, so bytes that are no document are shown without an error. Everything else is proved."
  },
  {
   "property": "C109",
   "status": "partial",
   "theorems": [
    "C109_cells",
    "C109_order",
    "C109_made",
    "C109_ref_refuted",
    "C109_none_refuted"
   ],
   "note": "Two parts are false of the code and refuted: a field called __ref is replaced by the nodes, and a span field holding None becomes the word None when spans are shown as text. Everything else is proved. DataFrame itself is not modelled: the dictionary given to it is."
  },
  {
   "property": "C110",
   "status": "proved",
   "theorems": [
    "C110_back",
    "C110_written",
    "C110_any_order",
    "C110_same_bytes_refuted"
   ],
   "note": "C110_same_bytes_refuted shows why texts must not be empty for the bytes to be the same: an empty text costs one byte more in the Java port."
  },
  {
   "property": "C111",
   "status": "proved",
   "theorems": [
    "C111_set",
    "C111_set_all",
    "C111_add",
    "C111_defaults",
    "C111_shared",
    "C111_stale_refuted",
    "C111_layer",
    "C111_delete",
    "C111_maintext",
    "C111_repr"
   ],
   "note": "C111_stale_refuted shows why a schema object of its own is needed: with a shared one the default values of the other layer are out of date."
  },
  {
   "property": "C112",
   "status": "proved",
   "theorems": [
    "C112_written",
    "C112_schema",
    "C112_spans",
    "C112_long",
    "C112_huge"
   ],
   "note": "Names and strings with an unpaired surrogate are outside C112_written and C112_long: the library writes a question mark for one, which is not modelled."
  },
  {
   "property": "C113",
   "status": "proved",
   "theorems": [
    "C113_same_bytes",
    "C113_valid",
    "C113_other_bytes_refuted"
   ],
   "note": "C113_other_bytes_refuted: why lists of no nodes and empty texts are excluded."
  },
  {
   "property": "C114",
   "status": "proved",
   "theorems": [
    "C114_values",
    "C114_as_plain",
    "C114_visits",
    "C114_builder",
    "C114_reference",
    "C114_reference_refused",
    "C114_inherited",
    "C114_stops",
    "C114_own_refuted",
    "C114_half_refuted"
   ],
   "note": "C114_own_refuted, C114_half_refuted: what holds of ordinary nodes only."
  },
  {
   "property": "C115",
   "status": "proved",
   "theorems": [
    "C115_with",
    "C115_read",
    "C115_modes",
    "C115_closed",
    "C115_skips",
    "C115_mode_refuted",
    "C115_append_refuted"
   ],
   "note": "C115_mode_refuted, C115_append_refuted: what does not hold of DocumentIO.write and of mode ab."
  },
  {
   "property": "C116",
   "status": "proved",
   "theorems": [
    "C116_packed",
    "C116_missing",
    "C116_undeclared",
    "C116_unchecked",
    "C116_main_text",
    "C116_open",
    "C116_seek",
    "C116_write",
    "C116_repr",
    "C116_repr_long"
   ],
   "note": ""
  },
  {
   "property": "C117",
   "status": "proved",
   "theorems": [
    "C117_contents",
    "C117_unique",
    "C117_read",
    "C117_json",
    "C117_json_read"
   ],
   "note": ""
  },
  {
   "property": "C118",
   "status": "proved",
   "theorems": [
    "C118_refused",
    "C118_short",
    "C118_magic",
    "C118_references",
    "C118_one",
    "C118_read",
    "C118_special",
    "C118_layer",
    "C118_cell",
    "C118_column",
    "C118_span"
   ],
   "note": "the flaw of a node range that is no pair is an assertion of Java and so only seen with assertions on; cells that end in their middle are not part of this claim"
  }
 ]
}
