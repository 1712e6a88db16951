# Formal model of docria (Python) in Rocq/Coq 8.16.1

## Layout

* `rocq/theories/Py*.v`      – Python basics (results/exceptions, dicts, slices, stable sort).
* `rocq/theories/Model_*.v`  – the executable model; every definition cites file and lines in `/repo`.
* `rocq/theories/Spec_*.v`   – small, model-independent specifications used in theorem statements.
* `rocq/theories/Proof_*.v`  – lemmas and proofs.
* `rocq/theories/Prop_*.v`   – the property theorems only: statement, `exact lemma`, `Print Assumptions`,
  and an `Example` showing that a concrete case satisfies the hypotheses.
* `seeded/LOG.jsonl`         – mutation log: wrong programs tried against the theorems.
  It lists hand-written and automatic edits, killed or survived.  The notes say so where lines were added afterwards from
  the outputs of the runs: up to C115 automatic edits and most survivors were not logged as they were tried.  Edits that do
  not type-check (221 of the automatic ones) are left out, and outputs of some early batches were not kept.

## Trusted base

* Coq's kernel (8.16.1), including its `vm_compute` reduction machine.
* `Print Assumptions` prints "Closed under the global context" for every theorem named in `MANIFEST.json`:
  no axiom, parameter or admitted statement, not even from the standard library.
  (A whole-library listing such as `coqchk -o` also names the seven constants of `Coq.ssr.ssrunder.Under_rel`, which belong to the
  standard library's ssr plugin module loaded by Coq's `Lia`/`Zify` files; no theorem here depends on them.)
* For the Java port: `int` and `long` counters are unbounded unless said otherwise; an `InputStream` is its bytes together with the sizes of the
  pieces it returns, over which the theorems quantify. A `String` is its UTF-16 units; msgpack-java is taken as documented
  (smallest header for every number, `packString` writes a question mark for a lone surrogate).
* The reading of the Python code: the model is a manual transcription; nothing was executed.
* Behaviour of CPython built-ins that the model mirrors: `list`, `dict` (insertion order), `slice.indices`,
  `list.sort` (stable), `str.find`, unbounded `int`, `None.__ne__` used as a filter (truthy NotImplemented).
* Behaviour of msgpack-python >= 1.0 (`use_bin_type=True`, `raw=False`): `Model_Msgpack.v` is a model of the
  MessagePack format itself (nil/bool/int/floats/str/bin/array/map); ext types and timestamps can be skipped but not read as values.
* Compression codecs: hypotheses `decompress (compress x) = x` appear explicitly in the theorem statements.
* Section variables used as parameters (all generalised in the theorems): the iteration order of Python sets, `str()` of floats,
  the whitespace test, word-character test and lower() of `str`, key functions and child functions supplied by the user.

## Modelling conventions

* A Python exception is a value `Err e`; an operation that mutates returns the new state even when it raises,
  so partial effects are visible.
* Python objects with identity (nodes, layers, texts) live in a heap: a total function from object number to contents
  plus a counter of allocated objects.  Mutation is heap update.
* `str` is a list of code points (`list N`), `bytes` a list of `N` below 256, `int` is `Z`, `float` is its 64-bit pattern.
* A Python loop becomes structural recursion or a fold; a `while` loop gets explicit fuel and the theorems show
  that the fuel given always suffices (no out-of-fuel result).
* Generators are modelled by the list of what they yield together with the exception that ends them, if any.

## Code that is modelled and code that is not

| file | modelled | not modelled |
|------|----------|--------------|
| `model.py` | `NodeList`, `NodeSpan`, `NodeCollection`, `Text`, `TextSpan`, `Offset` numbering, `Node` with `fld`, `ExtData`, `NodeLayerCollection`, `NodeSpan` iteration, `NodeCollectionQuery`, `NodeFieldCollection` predicates, `DataType*`, schemas, validation, `Document` (layers, compile, remove_layer, pickling and copying), tables of nodes and documents (`Model_Repr.v`), `printschema` (`Model_Schema.v`), `to_pandas` up to the dictionary given to `DataFrame` (`Model_Debug.v`) | `repr` of queries and of floats, `DataFrame` itself, IPython helpers |
| `codec.py` | `Codec`, `MsgpackCodec` (with `debug`, `Model_Debug.v`), `MsgpackDocument`, `MsgpackDocumentExt`, `JsonCodec` with the JSON text (CPython json), `XmlCodec` with the XML text (CPython ElementTree.write) | reading of XML (there is none in the code) |
| `collection.py` | codec registry, document writer/reader/blocks, boundary writer/reader, tar reader/writer over members, file index, index of several files with their paths, directory index, files by their path and the with statement (`Model_With.v`) | the operating system (files are a function from places to bytes), symbolic links, compression, tarfile bytes, pickling of an index, the worker processes themselves |
| `algorithm.py` | bfs, dfs, dfs_leaves, children_of, span_translate, group_by_span, dominant_right, sequence_to_textspans, get_prop, chain | |
| `query.py` | all predicates with their `repr` (`Model_PyRepr.v`) | `repr` of functions and sets |
| `printout.py` | options, truncate, tables as text and HTML, `get_representation` | |
| `index.py` | nothing to model: every method of `EdgeIndex` is `pass` | |
| `storage.py` | re-exports only | |
| `java/core` (port to Java) | `io/BoundaryWriter`, `io/BoundaryReader`, `io/ByteOutputBuffer`, `io/DeflateCodec` (its loops), `io/DocumentStreamWriter`, `io/DocumentStreamBoundaryWriter`, `io/DocumentStreamReader`, `io/MsgpackDocumentStreamReader` (documents as byte arrays), `algorithms/DominantRight`, `algorithms/GroupBySpan`, `Layer`, `Text`, `Offset`, `Span`, `MsgpackDocument`, `Document` (add, remove), `Node` and its builder, `ConcreteNode`, `Schema`, the types of values, `Value` and `values/*` (accessors, equals, hashCode, `Values.get`, `DocumentValue`), `MsgpackCodec.decode` and `MsgpackCodec.encode` (with `Document.validateSchema` and `Document.compile`) with `DataType`, `DataTypeName`, `Schema` and `Values` as far as it uses them (msgpack-java as documented); `java/hadoop`: `DocumentWritable`, `DocriaWriter`, the record reader of `DocriaInputFormat` | `JsonCodec` (empty in the code), `ValueVisitor`, `DocriaOutputFormat` (calls of Hadoop only) |


## Per property

Status is that of the property as stated in `properties.jsonl`; a `_refuted` theorem is a machine-checked witness that the
(stronger) statement is false of the modelled code.

### C01 Slicing a text is Python string slicing (proved)

* Modelled: `Text.__getitem__` with a slice, `slice.indices` (`Model_Text.v`)
* Proof: spec is Python slicing on lists (`py_slice`), case analysis on normalisation with lia
* Theorems: `C01_text_slice`

### C02 Tuple indexing of a text is strict (proved)

* Modelled: `Text.__getitem__` with a pair
* Proof: case analysis
* Theorems: `C02_text_pair`

### C03 Slicing a span composes (proved)

* Modelled: `TextSpan.__getitem__` with slices, `span_to`, `text_to`
* Proof: arithmetic on clamped offsets, list lemmas on sub-lists of sub-lists
* Theorems: `C03_span_slice`, `C03_span_to`

### C04 Integer-indexing a span stays inside the span (partial)

* Modelled: `TextSpan.__getitem__` with an int
* Proof: exact where in range; vm_compute witness outside
* Scope: Exact inside the range; outside it the code returns a character outside the span instead of raising IndexError (refuted by a witness).
* Theorems: `C04_span_int_partial`, `C04_span_int_below`, `C04_span_int_above`, `C04_span_int_refuted`

### C05 covered_by and intersected_by are interval inclusion and overlap (proved)

* Modelled: `covered_by`, `intersected_by` with spans and tuples
* Proof: equivalence with interval inclusion/overlap by lia
* Theorems: `C05_covered_by`, `C05_intersected_by`, `C05_intersected_sym`, `C05_covered_refl`, `C05_covered_trans`, `C05_tuple_forms`, `C05_covered_empty`

### C06 trim removes surrounding whitespace and nothing else (partial)

* Modelled: `TextSpan.trim`, `_trim_offsets` over an arbitrary whitespace test
* Proof: induction on the scanning loops
* Scope: trim only drops whitespace and always clears the leading side; the trailing side is cleared only if there was no leading whitespace (the code uses elif), refuted by a witness.
* Theorems: `C06_trim_partial`, `C06_trim_refuted`, `C06_leading`

### C07 Text segmentation is lossless (proved)

* Modelled: `Text.compile`, offset numbering (`initialize_offsets`, `gc`)
* Proof: induction on the sorted offset list; concatenation of segments is the text
* Theorems: `C07_segmentation`, `C07_offset_ids`

### C08 A layer behaves as an ordered list of nodes under every history (partial)

* Modelled: `NodeLayerCollection` add, remove, retain, sort, compact, add_many, iteration (`Model_Heap.v`, `Model_Layer.v`); nodes live in a heap
* Proof: invariant `wf` (slot i holds the node with id i, count = live slots, membership iff slot) kept by each call, refinement to a list of node identities, induction over call histories
* Scope: All histories of 16 kinds of calls, including raising ones. Excluded: positional add of a node that is already bound (corrupts the layer, refuted by a witness) and retain on a gapped layer or with foreign nodes (C15).
* Theorems: `C08_history_partial`, `C08_outcomes`, `C08_reachable_consistent`, `C08_add_bound_refuted`

### C09 Membership, index and iteration agree (proved)

* Modelled: `__contains__`, `i`, iteration, `__getitem__`
* Proof: from the invariant
* Theorems: `C09_membership`, `C09_position`

### C10 left and right are predecessor and successor (proved)

* Modelled: `left`, `right`, scanning loops over gaps
* Proof: loop induction, fuel shown to suffice
* Theorems: `C10_neighbours`

### C11 Node spans denote contiguous runs (proved)

* Modelled: `iter_nodespan`, `iter_span`, `NodeSpan`
* Proof: induction on the slot range
* Theorems: `C11_node_spans`

### C12 remove removes exactly the given nodes (partial)

* Modelled: `remove` of one node and of many
* Proof: invariant preservation, content is the filtered list
* Scope: Everything but the exception class: for a dangling node that has fields the error message itself raises AttributeError (witness); C12_error and C12_error_many say exactly when.
* Theorems: `C12_remove_one_partial`, `C12_remove_many_partial`, `C12_error_kind_refuted`, `C12_error`, `C12_error_many`

### C13 Compaction is invisible (partial)

* Modelled: `compact`, `compile`
* Proof: content before = content after; gap bound arithmetic
* Scope: Invisibility is proved in full. The gap bound holds after every successful remove; as a state invariant it is false (witness: add after remove on a small layer).
* Theorems: `C13_compact`, `C13_compile`, `C13_gaps_after_remove`, `C13_gaps_after_remove_many`, `C13_gap_bound_refuted`

### C14 sort is a stable sort (proved)

* Modelled: `sort` with a key function that may raise
* Proof: `list.sort` specified as the stable sort; permutation and stability proved
* Theorems: `C14_sort`, `C14_sort_raises`

### C15 retain keeps exactly the given nodes (partial)

* Modelled: `retain`
* Proof: refinement on gap-free layers
* Scope: Layers without gaps and nodes of the layer; with a gap retain always raises AttributeError and leaves the slots in exactly the state of C15_gap; with a foreign node it raises as in C15_foreign.
* Theorems: `C15_retain_partial`, `C15_gap_refuted`, `C15_gap`, `C15_foreign`

### C16 add(**fields) is atomic and schema-checked (proved)

* Modelled: `add(**fields)` with validation
* Proof: heap frame reasoning
* Theorems: `C16_add`, `C16_add_valid`

### C17 add_many appends in order and fills defaults (proved)

* Modelled: `add_many`
* Proof: induction on the list of nodes
* Scope: The refuted theorem concerns a stronger claim (accepted nodes are valid), false because validation precedes the filling of defaults.
* Theorems: `C17_add_many`, `C17_validated_refuted`

### C18 add_field and remove_field touch only that field (proved)

* Modelled: `add_field`, `remove_field`
* Proof: induction over layer iteration, frame lemma
* Scope: add_field of a declared name raises TypeError and changes nothing. Restoration needs that no node has the undeclared key (witness otherwise).
* Theorems: `C18_add_field`, `C18_remove_field`, `C18_add_then_remove`, `C18_undeclared_refuted`

### C19 Numeric field validation is the exact machine range (proved)

* Modelled: `DataType` classes and `is_valid` (`Model_Types.v`)
* Proof: case analysis on types and values
* Theorems: `C19_scalar_ranges`, `C19_is_valid`, `C19_constructors`, `C19_made`

### C20 validate decides field validity and never returns False (partial)

* Modelled: `validate`, `is_valid`, node and node-span checks
* Proof: induction over fields
* Scope: validate returns True exactly on valid nodes. It can return False instead of raising: a Node in a node-span field whose neighbours are in the target layer (witness). C20_exact gives the outcome (True, False or which exception) for every node of every layer, C20_false exactly when it is False.
* Theorems: `C20_validate_partial`, `C20_exact`, `C20_determined`, `C20_false`, `C20_returns_false_refuted`

### C21 Numeric type merging is a join (proved)

* Modelled: `cast_up`, `cast_up_possible`
* Proof: finite case analysis over type names
* Theorems: `C21_join`, `C21_assoc`, `C21_idem`, `C21_fails`, `C21_possible`

### C22 A document that compiles has no undeclared fields and no missing targets (partial)

* Modelled: `Document.compile`, reference checks (`Model_Document.v`)
* Proof: induction over layers, fields, nodes
* Scope: Everything but one case: a Node in a node-span field is not refused (witness; it is written as the span of its neighbours). C22_exact: nodes with such a field are the only ones that are not valid.
* Theorems: `C22_compiled_partial`, `C22_exact`, `C22_refuted`

### C23 remove_layer refuses to break references (partial)

* Modelled: `Document.remove_layer`
* Proof: case analysis and induction over referencing fields
* Scope: Node span fields are not counted as references and cascading removes no field (witnesses); the answer is never True.
* Theorems: `C23_remove_layer_partial`, `C23_nodespan_refuted`, `C23_cascade_refuted`, `C23_answer_refuted`

### C24 MessagePack value encoding round-trips (proved)

* Modelled: the MessagePack format (`Model_Msgpack.v`) and UTF-8
* Proof: nested induction on values; prefix-freeness; fuel shown sufficient
* Scope: msgpack library modelled from its specification; values of extension types and non-string map keys are not built
* Theorems: `C24_round_trip`, `C24_limits`, `C24_prefix_free`, `C24_shortest`, `C24_stable`, `C24_total`

### C25 Documents survive a MessagePack round trip (proved)

* Modelled: `MsgpackCodec.encode/decode`, column encoders and decoders, `commit_layers` (`Model_Codec.v`)
* Proof: column-wise round-trip lemmas, document view (`Spec_Codec.same_doc`) compared node by node
* Scope: Encoded bytes, followed by anything, decode in any program state to a document equal node by node; valid documents within the format limits are encoded whatever the options.
* Theorems: `C25_round_trip`, `C25_encodes`, `C25_options`

### C26 Re-encoding a decoded document is byte-identical (proved)

* Modelled: as C25
* Proof: decoded document re-encoded: equality of bytes
* Scope: Bytes of the decoded document are identical, with any encode options; the decoded document is valid.
* Theorems: `C26_stable`, `C26_valid`

### C27 Encoding does not change the document (proved)

* Modelled: `encode`, `compile`
* Proof: frame lemma: visible content unchanged
* Theorems: `C27_encode_keeps`, `C27_compile_keeps`

### C28 JSON object round trip (proved)

* Modelled: `JsonCodec.encode_object/decode_object` (`Model_Json.v`)
* Proof: shares the column lemmas with C25
* Scope: At the level of encode_object / decode_object; the text of JSON is the subject of other properties (Model_JsonText.v).
* Theorems: `C28_round_trip`, `C28_encodes`, `C28_msgpack`, `C28_stable`

### C29 Lazy decoding equals full decoding (proved)

* Modelled: `MsgpackDocument` (`Model_Lazy.v`)
* Proof: simulation over any sequence of calls
* Scope: Any sequence of calls; document(names) with fewer than all layers raises KeyError (modelled; example C29_case).
* Theorems: `C29_lazy`, `C29_document`, `C29_pickle`, `C29_foreign`

### C30 Selecting properties is projection (proved)

* Modelled: `MsgpackDocument.properties`, `texts`
* Proof: dictionary lemmas
* Scope: Projection of properties; texts(names) answers the empty dict for every document.
* Theorems: `C30_properties`, `C30_texts_refuted`

### C31 Node references are never silently retargeted (partial)

* Modelled: reference checks of `compile`
* Proof: from C22/C25 with unique names
* Scope: False of the code in general (two witnesses); holds when layer names are unique in the program and types have not been decoded.
* Theorems: `C31_own_partial`, `C31_other_refuted`, `C31_decoded_refuted`

### C32 Document files round-trip (proved)

* Modelled: `MsgpackDocumentWriter`, `MsgpackDocumentReader`, `MsgpackDocumentBlock` over byte files (`Model_Collection.v`)
* Proof: induction on writes and blocks; prefix lemma of the unpacker
* Scope: Any block size, any pattern of flushes, any codec that its registered decompressor undoes (an explicit hypothesis; compression itself is not modelled).
* Theorems: `C32_round_trip`, `C32_documents`, `C32_layout`, `C32_writes`, `C32_refuses_header`, `C32_refuses_codec`, `C32_refuses_advanced`

### C33 References give random access (partial)

* Modelled: `get`, `seek`, `__next__`, `ref`
* Proof: state machine invariant over any sequence of calls
* Scope: Proved for every sequence of next, get and seek; false of the code when readblock or blocks is interleaved with next (witness).
* Theorems: `C33_access`, `C33_any`, `C33_readblock_refuted`

### C34 A truncated file yields a prefix (proved)

* Modelled: reader on truncated bytes
* Proof: prefix lemma: an incomplete value does not parse
* Scope: Cut anywhere after the header: exactly the documents of the complete blocks are read.
* Theorems: `C34_truncated`

### C35 Boundary files interleave markers and data losslessly (proved)

* Modelled: `_BoundaryWriter` (`Model_Boundary.v`)
* Proof: closed-form layout specification; induction on segments
* Scope: Every program of writes and splits; the layout determines the file up to the contents of the markers.
* Theorems: `C35_layout`, `C35_exponent`, `C35_unique`

### C36 Boundary markers point to the last record start (proved)

* Modelled: split bookkeeping of the boundary writer and document writer
* Proof: invariant on the last split
* Scope: Markers against the latest split at or before them; the document writer splits after its header and after every block.
* Theorems: `C36_markers`, `C36_blocks`

### C37 The boundary reader returns the written data (partial)

* Modelled: boundary reader `read`, `seek`, `tell`
* Proof: per-operation exactness lemmas, induction over programs
* Scope: Proved for every sequence of reads, seeks and tells that stay on offsets where the code is exact (all below 2^(b+1)-5); false otherwise (three witnesses).
* Theorems: `C37_read_partial`, `C37_end_refuted`, `C37_stop_refuted`, `C37_gap_refuted`

### C38 Logical positions map to the right absolute positions (proved)

* Modelled: logical/absolute position arithmetic
* Proof: lia with powers of two
* Scope: Every offset; directly before a marker tell is four short, as the statement excepts.
* Theorems: `C38_seek`, `C38_tell_before_marker`

### C39 Index search is exact (proved)

* Modelled: `DocumentFileIndex.build/search` (`Model_Index.v`), Python equality of keys
* Proof: induction over blocks and documents; set intersection lemmas
* Scope: Python equality of keys (1 == True == 1.0, NaN equal to nothing) is specified with rationals; paths and pickling of an index are not modelled.
* Theorems: `C39_search`, `C39_build_refuses`, `C39_search_refuses`, `C39_files`

### C40 Tar collections keep order (proved)

* Modelled: `TarMsgpackWriter/Reader` over a list of members (`Model_Tar.v`)
* Proof: induction; injectivity of decimal formatting
* Scope: An archive is a list of members; tarfile and compression are not modelled. docformat is text, one %0wd conversion, text.
* Theorems: `C40_order`, `C40_documents`, `C40_names`, `C40_any`

### C41 bfs visits each reachable node once, by distance (proved)

* Modelled: `bfs` with fuel (`Model_Graph.v`)
* Proof: queue invariant; distance characterisation; termination on finite reachable sets
* Scope: Every child function whose reachable part is finite; with and without is_result.
* Theorems: `C41_raises`, `C41_order`, `C41_nodes`

### C42 dfs is left-to-right preorder (proved)

* Modelled: `dfs`
* Proof: simulation with an inductive recursive preorder
* Scope: Against an inductive recursive preorder.
* Theorems: `C42_raises`, `C42_order`, `C42_nodes`

### C43 dfs_leaves yields the reachable leaves (proved)

* Modelled: `dfs_leaves`
* Proof: stack invariant
* Scope: Every childless reachable node once; only those on trees; a cyclic graph where a node with children is yielded.
* Theorems: `C43_raises`, `C43_order`, `C43_nodes`, `C43_only_refuted`

### C44 children_of yields the children in the given fields (partial)

* Modelled: `children_of` closures with the rebinding of the loop variable
* Proof: case analysis
* Scope: One field, any layer and node; several fields only if all but the last are empty; false otherwise (witness); C44_several says exactly which nodes are yielded.
* Theorems: `C44_one`, `C44_last_partial`, `C44_refuses`, `C44_children_refused`, `C44_several_refuted`, `C44_several`

### C45 span_translate maps through the covering interval (proved)

* Modelled: `span_translate` (`Model_Algorithm.v`)
* Proof: sweep invariant over the sorted event list
* Scope: Sweep over mapping and remapped layer; hypotheses: layers without gaps in iteration, distinct ids, images in order inside the target text (image_fits). Outcome-independent frame theorem C45_untouched.
* Theorems: `C45_maps`, `C45_refuses`, `C45_no_text`, `C45_raises`, `C45_untouched`, `C45_overlap`

### C46 group_by_span groups exactly the intersecting nodes (partial)

* Modelled: `group_by_span`; Python `set` order is an arbitrary function
* Proof: sweep invariant
* Scope: Exact content of every group for any iteration order of the sets. Missing: span fields holding None, which the docstring says are ignored; they raise AttributeError (C46_none_refuted).
* Theorems: `C46_intersect_partial`, `C46_none_refuted`

### C47 Cover resolution and empty-group filtering (proved)

* Modelled: cover resolution and the empty-group filter
* Proof: induction over groups
* Scope: Cover keeps the intersecting nodes that lie inside; the empty-group filter is stated for every input and resolution.
* Theorems: `C47_cover`, `C47_inside`, `C47_empty`

### C48 dominant_right output is conflict-free and dominant (proved)

* Modelled: `dominant_right` family
* Proof: sorted-list invariants
* Scope: Segments with start <= stop, told apart by place in the list. C48_not_maximal records that a dropped segment may overlap nothing returned.
* Theorems: `C48_dominant`, `C48_nodes`, `C48_not_maximal`

### C49 sequence_to_textspans aligns tokens in order (partial)

* Modelled: `sequence_to_textspans`, `str.find`
* Proof: loop invariant
* Scope: Start offsets >= 0. A negative start can raise (C49_start_refuted); a negative stop is applied twice (C49_stop_twice).
* Theorems: `C49_safe_partial`, `C49_exact_partial`, `C49_window`, `C49_start_refuted`, `C49_stop_twice`

### C50 Predicates form a boolean algebra and queries are filters (proved)

* Modelled: `query.py` predicates and `NodeCollectionQuery`, comparisons of Python numbers, strings and spans (`Model_Query.v`)
* Proof: structural induction on predicates; IEEE values as rationals
* Scope: Queries over layers, node spans, node lists and queries; comparisons of numbers against the IEEE value, strings lexicographically. C50_node_neq, C50_any_text, C50_query_field record surprising behaviour of the code.
* Theorems: `C50_layer`, `C50_filter`, `C50_and`, `C50_or`, `C50_not`, `C50_nested`, `C50_raises`, `C50_update`, `C50_numbers`, `C50_equal_numbers`, `C50_infinite`, `C50_nan`, `C50_strings`, `C50_equal_strings`, `C50_span_text`, `C50_absent`, `C50_any`, `C50_any_numbers`, `C50_spans`, `C50_field`, `C50_none`, `C50_ordered`, `C50_lists`, `C50_nodes`, `C50_any_lists`, `C50_spans_refused`, `C50_node_neq`, `C50_any_text`, `C50_query_field`

### C51 Truncated cells respect the width limit (partial)

* Modelled: `truncate`, `PrintOptions` (`Model_Printout.v`)
* Proof: arithmetic, induction over setter calls
* Scope: All texts and all settings reached by setter calls with whole numbers. Missing: max_display_width None (TypeError) and fractional limits (6.5), both refuted; a text within five characters of the limit is cut and may grow (C51_fits_refuted).
* Theorems: `C51_truncate_partial`, `C51_unlimited`, `C51_limits`, `C51_setters`, `C51_display_refuted`, `C51_fraction_refuted`, `C51_fits_refuted`, `C51_max_columns`

### C52 Tables show every column once and the outer rows (proved)

* Modelled: `Table.render_text`
* Proof: column loop invariant
* Scope: Blocks of columns, their lines, least widths, rows shown; C52_display_refuted: a block may exceed max_display_width by its last column.
* Theorems: `C52_layout`, `C52_rows`, `C52_total`, `C52_short_row`, `C52_aligned`, `C52_display_refuted`, `C52_one_row`

### C53 HTML cells are escaped (proved)

* Modelled: `Table.render_html`, link formatters, `html.escape`
* Proof: induction on characters
* Scope: For arbitrary word-character test and lower(). Row names (TableRow.index) are not values and are not escaped (C53_index_refuted).
* Theorems: `C53_cell`, `C53_plain`, `C53_wikidata`, `C53_wikipedia`, `C53_escape`, `C53_table`, `C53_index_refuted`, `C53_wikipedia_refuted`

### C54 XML string encoding yields only legal characters (proved)

* Modelled: the XML string encoder regex as a character class (`Model_XmlString.v`)
* Proof: case analysis per code point
* Scope: All strings. The stated property leaves out characters above U+FFFF, which are legal in XML but become spaces (C54_supplementary_refuted).
* Theorems: `C54_chars`, `C54_legal`, `C54_unchanged`, `C54_twice`, `C54_supplementary_refuted`

### C55 A type's default is the default it was given (partial)

* Modelled: data type constructors and `default`
* Proof: case analysis
* Scope: False for float64 (two witnesses).
* Theorems: `C55_int_defaults`, `C55_string_defaults`, `C55_bool_defaults`, `C55_float_default_lost_refuted`, `C55_float_default_invalid_refuted`, `C55_float_defaults`

### C56 typeof infers a type that accepts the value (partial)

* Modelled: `DataTypes.typeof`
* Proof: case analysis
* Scope: For ints in the 64-bit range and strings below 2^31; the witness is 2^63.
* Theorems: `C56_typeof_partial`, `C56_big_int_refuted`

### C57 The codec registry is a map (proved)

* Modelled: `register_codec`, `unregister_codec`, `get_codec`
* Proof: induction over operation sequences against a finite map
* Scope: Every sequence of register, unregister and get operations.
* Theorems: `C57_registry`

### C58 The XML tree shows the whole document (partial)

* Modelled: `XmlCodec.encode_tree`, `encode_intermediate` up to the ElementTree objects (`Model_Xml.v`)
* Proof: relational spec `document_elem` proved by induction over layers, nodes and fields
* Scope: Content of the tree proved in full for every document that is encoded; str() of floats is a parameter. Valid documents without binary values are encoded unless verbose_node_spans is set; three witnesses for what is false of the code.
* Theorems: `C58_shows`, `C58_encodes_partial`, `C58_keeps`, `C58_binary_refuted`, `C58_verbose_spans_refuted`, `C58_illegal_refuted`

### C59 XML identifiers are unique (partial)

* Modelled: `xml:id` attributes of the tree
* Proof: decimal injectivity; uniqueness by splitting at the last dot
* Scope: Uniqueness in full; node span references lack the document id (witness).
* Theorems: `C59_ids`, `C59_unique`, `C59_reference_refuted`

### C60 Node lists know the fields of their nodes (partial)

* Modelled: `NodeList.__init__`, `__getitem__` (`Model_Nodes.v`); the orders of the two sets are arbitrary rearrangements
* Proof: invariant: the gathered table lists exactly the contributed types up to type name; merge succeeds iff all numeric
* Scope: For any set order. Fields whose types have different names are missing from the list even if they can be merged (witness). Slices with step 1; the list is taken to own a copy of the field types.
* Theorems: `C60_accepts`, `C60_fields_partial`, `C60_conflict`, `C60_given`, `C60_others`, `C60_int`, `C60_slice`, `C60_indices`, `C60_merged_refuted`, `C60_error_refuted`

### C61 The text of a node span reaches from its first to its last node (partial)

* Modelled: `NodeSpan.text`, `textspan`
* Proof: slice arithmetic; induction along the run
* Scope: In full for spans of one text; with two texts the answer is cut from the left text (witness).
* Theorems: `C61_text`, `C61_covers`, `C61_two_texts_refuted`, `C61_two_texts`

### C62 Collection operations agree with iteration (partial)

* Modelled: `NodeCollection.first/last/to_list/validate/__contains__`, `NodeFieldCollection.__len__/__getitem__`
* Proof: case analysis per collection kind; ends of a node span from layer consistency
* Scope: All but membership in node spans and queries, which asks the field names (witness).
* Theorems: `C62_ends`, `C62_length`, `C62_to_list`, `C62_list_member_partial`, `C62_layer_member_partial`, `C62_validate`, `C62_field_item`, `C62_field_absent`, `C62_member_refuted`, `C62_validate_layer`

### C63 The table of a collection shows its nodes (partial)

* Modelled: `NodeCollection._table_repr_`, `str()` of the four collections, `NodeSpan._repr_html_` (`Model_Repr.v`), rendered by `Model_Printout.v`
* Proof: relation `shown` for cells; sortedness and permutation of the header; totality through C52
* Scope: The table in full; success for names without a percent sign and values whose nodes are in layers (witnesses otherwise); row numbers of spans without gaps (witness otherwise). repr() of plain values is a parameter.
* Theorems: `C63_table`, `C63_total_partial`, `C63_span_index_partial`, `C63_percent_refuted`, `C63_double_percent_refuted`, `C63_dangling_refuted`, `C63_span_index_refuted`

### C64 Values, nodes and documents have a faithful representation (proved)

* Modelled: `get_representation`, `Node._table_repr_`, `Node.__repr__`, `NodeSpan.__repr__`, `Document.__str__`
* Proof: case analysis against the relation `shown`; the set of layer names as an invariant of the scan
* Scope: For any iteration order of the set of layer names; repr() of plain values is a parameter.
* Theorems: `C64_value`, `C64_value_total`, `C64_node`, `C64_node_total`, `C64_node_dangling`, `C64_document_total`, `C64_document`

### C65 Paths in an index of several files lead to the files (partial)

* Modelled: `DocumentIndex.__init__`, `add`, `search`; posixpath `split`, `normpath`, `abspath`, `relpath`, `join` (`Model_Path.v`); opening files by name
* Proof: relation `leads` (walking a path piece by piece); `norm_comps` and `relpath` against the walk; the search by congruence on places
* Scope: Paths in full; the search for working directories that are the base directory (witness for others). POSIX paths without symbolic links.
* Theorems: `C65_abspath`, `C65_normal`, `C65_relpath`, `C65_spelling`, `C65_files`, `C65_no_hits`, `C65_search_partial`, `C65_cwd_refuted`

### C66 The index of a directory covers its docria files (partial)

* Modelled: `build_msgpack_fileindex`, `build_msgpack_directory_fileindex` with its file name pattern
* Proof: the filter against `docria_name`; names of children lead to distinct places, then C65
* Scope: The filter in full; the search when the building succeeds and in the base directory (C65); witness that a compressed file stops the building. Worker processes: any order of completion, no failures of the pool.
* Theorems: `C66_filter`, `C66_directory_partial`, `C66_compressed_refuted`

### C67 JSON texts: what is read, what is written, and the way back (proved)

* Modelled: `json.dumps`, `json.loads` with default arguments (`Model_JsonText.v`): escapes, surrogates, numbers, constants, arrays, objects
* Proof: mutually inductive grammar; reading by mutual induction on derivations, soundness and fuel by induction on fuel; writing by induction on values; the one form that is written is a second relation (Spec_JsonForm.v), equal to dumps in both directions
* Scope: CPython json with default arguments; float.__repr__ and float() are parameters with floats_ok (instance given). No limits on the digits of an int or the depth of nesting.
* Theorems: `C67_loads`, `C67_refuses`, `C67_unique`, `C67_bytes`, `C67_ascii`, `C67_dumps`, `C67_round`, `C67_form`, `C67_surrogates_refuted`, `C67_nan_refuted`

### C68 JSON text of a document (partial)

* Modelled: `JsonCodec.encode`, `decode` (codec.py 178-204)
* Proof: safety of the encoded object from a condition on the document, then C28 and C67
* Scope: Documents without bytes, with the strings of C67; documents with bytes have no JSON text (C68_bytes).
* Theorems: `C68_round_partial`, `C68_encodes`, `C68_stable_partial`, `C68_msgpack_partial`, `C68_bytes`, `C68_refuses`

### C69 The text of an XML tree (proved)

* Modelled: `ElementTree.write` as called by `encode_utf8string` (`Model_XmlText.v`): names, namespaces, escaping, character references
* Proof: inductive grammar; writing by induction on trees; uniqueness by a reader that inverts every derivation; the one text that is written (Spec_XmlForm.v) by induction on trees both ways
* Scope: The grammar has elements and attributes (no character data, comments, declarations of namespaces); ElementTree.write of CPython 3.9 or later.
* Theorems: `C69_writes`, `C69_expressible`, `C69_unique`, `C69_error`, `C69_form`

### C70 XML text of a document (partial)

* Modelled: `XmlCodec.encode_utf8string` (codec.py 983-996)
* Proof: the tree of a document that XML can express is expressible (through C58), then C69; witnesses by the reader of C69
* Scope: Documents that XML can express (xml_doc_ok), without binary values and verbose node spans; witnesses for what is false of the code.
* Theorems: `C70_writes_partial`, `C70_keeps`, `C70_character_refuted`, `C70_name_refuted`, `C70_injected_refuted`, `C70_checked_partial`

### C71 Documents made by programs survive encoding (proved)

* Modelled: the calls of C08 together with `add_text`, `maintext`, `add_layer`, `remove_layer`, `encode` on one document (`Spec_Program.v` runs the modelled functions)
* Proof: invariant over programs (distinct layer names, spans inside texts, values from arguments or defaults), then what `compile` checked (C22) gives every condition of C25
* Scope: Programs with the calls of C08 on layers and nodes, and add_text, maintext, add_layer, remove_layer, props, encode. The conditions on the statements (fresh text and layer names, spans of own texts) and on the end state (settled) are in Spec_Program.v, with witnesses that they are needed (C22_refuted for node spans).
* Theorems: `C71_valid`, `C71_round_trip`, `C71_references`, `C71_dictionaries`, `C71_reused_name_refuted`, `C71_new_text_refuted`

### C72 The printed schema tells the schema (proved)

* Modelled: `printschema` with the lines it prints and the exception for unknown types; `str()` of option values is a parameter
* Proof: each line can be cut apart again (no newline, blank, colon, bracket, comma inside its parts), and two sorted dictionaries with the same entries are equal
* Scope: For printable names (Spec_Schema.v), with a witness that blanks in field names can hide; str() of option values is a parameter.
* Theorems: `C72_same`, `C72_ends`, `C72_blank_refuted`

### C73 Calls touch only the objects they are given (proved)

* Modelled: all layer and node operations, `add_layer`, `remove_layer`, `compile`, `encode`
* Proof: each primitive assignment stays in the part and keeps it closed; induction over loops and over the history
* Scope: No condition on the calls but that the layers they are made on and the nodes they are given are in the part; a witness shows that given nodes matter (add steals a node).
* Theorems: `C73_calls`, `C73_programs`, `C73_documents`, `C73_given_refuted`

### C74 Pickled and copied documents are equal and independent (proved)

* Modelled: `__getstate__`, `__setstate__` on top of encode and decode
* Proof: C25, freshness of decoded objects, and C73
* Scope: The protocol of pickle and copy (object.__reduce_ex__) is assumed; the properties are values in the model, so their independence is by construction of decode.
* Theorems: `C74_copy`, `C74_elsewhere`, `C74_independent`, `C74_again`, `C74_refused`

### C75 Calls that cannot work raise the exception that the code documents (proved)

* Modelled: all calls named
* Proof: case analysis on ownership and numbers of the nodes; induction for add and sort
* Scope: Exception classes are values in the model; messages are not modelled but for the exceptions that making them raises.
* Theorems: `C75_outside`, `C75_foreign`, `C75_index`, `C75_span`, `C75_iter_span`, `C75_stale_span`, `C75_add`, `C75_sort`

### C76 Decoding bytes of any origin is safe (proved)

* Modelled: decode, decode_schema, decode_layer, commit_layers, unpacker.skip
* Proof: induction over the bytes read: a reader on a front of its input either has the same result or raises for want of bytes; invariants of the parts that were read; case analysis of every cell
* Scope: Plain values are not checked against their types (C76_untyped_refuted). Shapes that the writer never makes and that Python would accept or refuse in ways outside the model (a layer name twice, names that are no strings, nested lists in plain columns, ext fields with nodes) give Unmodelled, which the theorems name.
* Theorems: `C76_truncated`, `C76_extends`, `C76_sound`, `C76_typed`, `C76_untyped_refuted`, `C76_exceptions`, `C76_only_faults`, `C76_faults`, `C76_parts`, `C76_magic`, `C76_unknown_type`, `C76_duplicate_field`, `C76_special`

### C77 Values that are not of the type of their field are converted when written (proved)

* Modelled: Codec.encoders (codec.py 48-59) with Python's int, float, bool, str, bytes
* Proof: case analysis of value and type; rounding proved nearest against all doubles; the reader of numerals against a grammar; the round trip by comparing with the document whose fields hold the converted values
* Scope: float(text), str(float), str of nodes and lists, int of text beyond ASCII or of more than 4300 characters and foreign objects are named by C77_cell as beyond the model. Encoding such values is not lossless: C77_lossless_refuted.
* Theorems: `C77_cell`, `C77_round_trip`, `C77_float`, `C77_int_text`, `C77_text_back`, `C77_lossless_refuted`

### C78 Every MessagePack spelling of a document is read alike (proved)

* Modelled: msgpack.Unpacker as used by MsgpackDocument and MsgpackCodec.decode
* Proof: grammar of the format; reader sound by induction on fuel and complete by induction on the value; the file by the grammar of its sections
* Scope: format written as a grammar from the MessagePack specification (Spec_Spell.v); extension values and map keys that are no strings are outside it, as the model does not build them
* Theorems: `C78_format`, `C78_unambiguous`, `C78_packed`, `C78_document`

### C79 Fields as attributes, get_prop, chain and dangling nodes (proved)

* Modelled: Node.fld with _DictAsMembers, Node.is_dangling, Node.i, get_prop, chain
* Proof: attribute lookup finds the names of the class first; dictionary lemmas; consistency of the heap
* Scope: names of the form __x__ are excepted because some of them are found on every object (C79_reserved_refuted); node.i does not raise for removed nodes although its documentation says so (C79_number_refuted)
* Theorems: `C79_get`, `C79_set`, `C79_del`, `C79_reserved_refuted`, `C79_get_prop`, `C79_chain`, `C79_dangling`, `C79_removed`, `C79_number_refuted`

### C80 Typed data and embedded documents (proved)

* Modelled: ExtData, MsgpackDocumentExt
* Proof: C77's account of bytes(); round trip of C25 and stability of C26
* Scope: data is a field value; embedded data is bytes or a document
* Theorems: `C80_ext`, `C80_round_trip`, `C80_once`, `C80_failed`

### C81 Representations tell what they represent (partial)

* Modelled: repr of values, NodePredicate classes, DataType, TextSpan, layers
* Proof: literals are self-delimiting: what follows one never changes how it is read; induction over the predicate
* Scope: the clause that fails of the code: a predicate with >= is shown with > (query.py 153-154, C81_ge_refuted), so predicates are told up to that; floats are not modelled
* Theorems: `C81_values`, `C81_predicates`, `C81_ge_refuted`, `C81_types`, `C81_spans`, `C81_layers`

### C82 Document files of any origin (proved)

* Modelled: MsgpackDocumentReader, MsgpackDocumentBlock, DocumentReader
* Proof: readings as inductive relations over the bytes; the reader keeps what is left to read; every block it holds is the one at its position in the file
* Scope: values that msgpack gives as extension types or maps with byte strings as keys are outside the model (the exception is then Unmodelled); a decompression function is any function that raises or returns bytes
* Theorems: `C82_one_reading`, `C82_opens`, `C82_bad_name`, `C82_reads`, `C82_block`, `C82_cut_document`

### C83 Equality, hashing, and parts of spans by pair (partial)

* Modelled: TextSpan.__getitem__ with a pair, __eq__, __hash__; Offset; DataType.__eq__, __hash__; py_eq of node lists; opt_is
* Proof: the hash is modelled by the tuple that is hashed; options sorted by key are shown equal item by item
* Scope: equal spans of two texts hash differently, so the hash part is false of the code (witness); it is proved for spans of one text
* Theorems: `C83_pair`, `C83_pair_reach`, `C83_pair_leaves_refuted`, `C83_spans`, `C83_span_hash_partial`, `C83_span_hash_refuted`, `C83_span_string_refuted`, `C83_offsets`, `C83_types`, `C83_type_hash`, `C83_type_hash_back`, `C83_type_set`, `C83_node_lists`, `C83_no_string_option`, `C83_span_option`, `C83_named_types`

### C84 Indexes of document files of any origin (proved)

* Modelled: DocumentFileIndex.build, search; DocumentIndex.search; the reader and blocks of C82
* Proof: outcomes as an inductive relation over the documents of C82; the index holds exactly the numbers of the documents with a value; each fetch keeps the reader and the last block consistent with the file
* Scope: documents whose properties size is not an int are outside the model; a StopIteration leaving a generator is the RuntimeError of Python 3.7 and later
* Theorems: `C84_one_outcome`, `C84_build_search`, `C84_unopened`, `C84_number_missing`, `C84_several`, `C84_single`

### C85 XML trees of documents with values of other types (proved)

* Modelled: XmlCodec.encoders, encode_intermediate, encode_tree with the conversions of C77
* Proof: the tree equals that of a heap in which the values are converted, which satisfies the hypotheses of C58; converted cells by case analysis on type and value
* Scope: str of floats is a parameter; floats from text, integers from text beyond ASCII or 4300 characters and foreign objects are outside the model, as in C77
* Theorems: `C85_shows`, `C85_number`, `C85_string`, `C85_binary`

### C86 Any value in a field that refers to nodes or text (proved)

* Modelled: Codec.encoders and XmlCodec.encoders for node references, node lists, node spans and text spans; encode_tree 1061-1087; NodeSpan.text and textspan
* Proof: case analysis on the value; node lists by induction on what iterating over the value gives
* Scope: a list with elements in a node span field puts nodes where XML needs strings: outside the model
* Theorems: `C86_many`, `C86_not_listed`, `C86_all_values`, `C86_node`, `C86_nodespan`, `C86_nodespan_xml`, `C86_neighbours`, `C86_first`, `C86_no_nodespan`, `C86_no_nodespan_xml`, `C86_span`, `C86_text_fails`

### C87 The Java port writes files with markers like the Python code (proved)

* Modelled: BoundaryWriter (Java), next to the Python writer of C35
* Proof: the Java loop equals the Python loop under the invariant of C35; an invariant of its own for single bytes, with the data written and the data found side by side
* Scope: counters of type long are unbounded in the model
* Theorems: `C87_same_file`, `C87_single_bytes`

### C88 The Java port reads files with markers (proved)

* Modelled: BoundaryReader (Java) over streams that answer in pieces of any size
* Proof: invariant: position, segment and data read agree; induction on the rounds of the loop; a call that never ends is out of fuel for every amount of fuel
* Scope: the refuted theorems show the faults of skip, available and computeLength(0, x)
* Theorems: `C88_read`, `C88_hangs`, `C88_length`, `C88_length_refuted`, `C88_skip_refuted`, `C88_available`, `C88_available_refuted`

### C89 The Java port writes document files like the Python code (proved)

* Modelled: DocumentStreamWriter and DocumentStreamBoundaryWriter (Java), next to the Python writer of C32
* Proof: the two writers in step: same block, same count, same bytes once the pending part of the header is added; split positions side by side
* Scope: documents are byte arrays; the buffer of MessagePacker is modelled as: part of the header at once, the rest with the first block
* Theorems: `C89_same_bytes`, `C89_is_file`, `C89_empty`, `C89_splits`, `C89_marker_refuted`

### C90 The Java port reads document files (proved)

* Modelled: MessageUnpacker as far as used, DocumentStreamReader (Java)
* Proof: invariant: bytes left are those of the blocks left, the current block those of its documents left; refinement to lists; induction on calls and on the rounds of skip(n)
* Scope: documents are byte arrays (nextRaw); DeflateCodec is any pair of functions that undo each other
* Theorems: `C90_read`, `C90_python`, `C90_unknown`, `C90_block_size`, `C90_own_codec`, `C90_mixed`

### C91 Dominant segments in the Java port (partial)

* Modelled: DominantRight (Java): points, stable sort, the loop with its branch for nothing open, both node variants
* Proof: the Java and the Python sweep in step: same open segment, or Java holds a stale one that is longer than anything open in Python since; members of the Python result identified by tagging segments with their place
* Scope: missing: the dominant right rule itself, false after a longer segment that lost (C91_refuted); exact otherwise
* Theorems: `C91_against_python`, `C91_dominant_partial`, `C91_same`, `C91_refuted`, `C91_nodes`, `C91_missing`, `C91_nodespans`, `C91_nodespans_missing`

### C92 Groups by span in the Java port (proved)

* Modelled: GroupBySpan (Java): Builder with TreeMaps, points and their order, sweep with HashSets by Node.equals, postprocess
* Proof: the sorted points are Python's sorted events (insertion sort compares only elements in list order); step simulation of the sweep, Python's order of iteration chosen layer by layer; covered nodes filtered at once or afterwards; refusals: an invariant of the sweep under which a step succeeds or meets a node without layer
* Scope: layers are compared by identity; Java ints as integers (offsets of spans)
* Theorems: `C92_python`, `C92_layers`, `C92_intersect`, `C92_cover`, `C92_empty`, `C92_builder`, `C92_defaults`, `C92_no_span`, `C92_no_layer`, `C92_field_refuted`

### C93 The layer of the Java port (partial)

* Modelled: Layer (Java): storage, size, add, both remove, removeAll, compact with its trailing nulls, clear, on the heap of the Python model
* Proof: each call keeps slots, count, ids and owners in agreement and acts on the list; induction over the calls; the slot count is part of the list machine
* Scope: missing: add and clear on a layer with gaps, false of the code (C93_add_refuted, C93_clear); what happens then is stated exactly
* Theorems: `C93_history`, `C93_add`, `C93_add_gap`, `C93_add_refuted`, `C93_clear`

### C94 Reading, sorting and retaining in the Java layer (partial)

* Modelled: Layer (Java): stream, size, contains, first, last, get, nodespan, sort, retainAll
* Proof: ids after marking are negated by the parity of occurrences; the sweep in closed form; sorted slots with ids of the order before
* Scope: missing: consistency after sort and retainAll as a Collection defines it, both false of the code (C94_sort_refuted, C94_retain_refuted); both are characterised exactly
* Theorems: `C94_reading`, `C94_get`, `C94_nodespan`, `C94_sort`, `C94_sort_refuted`, `C94_retain`, `C94_retain_nothing`, `C94_retain_refuted`

### C95 Texts and their offsets in the Java port (partial)

* Modelled: Text (Java): offset objects with id, position and reference count, pos2Offset, span, reset, compile; incref; Document.compile for one text; decodeTexts
* Proof: reference counts after reset and incref are the occurrences; the pruned map has the known used offsets and the two ends; cutting loop in closed form; simulation by pairs of positions
* Scope: missing: spans that come back after an encoding without them, false of the code (C95_stale_refuted); C95_compile says exactly what happens to them
* Theorems: `C95_history`, `C95_compile`, `C95_outside`, `C95_span`, `C95_read`, `C95_roundtrip`, `C95_stale_refuted`

### C96 Spans of the Java port (partial)

* Modelled: Span (Java): start, stop, length, charAt, subSequence, toString, intersects, covers, compareTo, equals; Offset.equals; Text.equals
* Proof: slices of slices; one object per position for spans known to their text
* Scope: missing: subSequence from a negative start, intersects of touching spans, equality of a copy, all false of the code (the three refuted theorems)
* Theorems: `C96_reading`, `C96_sub_refuted`, `C96_order`, `C96_intersects_refuted`, `C96_equal`, `C96_equal_texts`, `C96_equal_ends`, `C96_copy_refuted`

### C97 Texts in UTF-16 and in code points (partial)

* Modelled: String as UTF-16 units, the UTF-8 encoding and decoding of msgpack-java, on top of C95
* Proof: the map from code point to unit positions is strictly monotone, so it commutes with sorting, cutting and ranking; pairs combine to the code point
* Scope: missing: texts with spans that end inside a surrogate pair, false of the code (C97_split_refuted); msgpack-java is taken as documented
* Theorems: `C97_numbers`, `C97_python`, `C97_bytes`, `C97_read`, `C97_read_text`, `C97_pairs`, `C97_split_refuted`, `C97_empty`

### C98 The Java port reads what the Python port writes (proved)

* Modelled: `MsgpackCodec.decode` of the Java port with the readers of types, schema, columns, texts and layers, over an unpacker that fails like msgpack-java; strings as UTF-16 units
* Proof: each reader of the Java port is run on what the Python writer of the same part produces, by induction over columns, rows and layers; the second pass that replaces indices by nodes is shown to find the node at the same position; the converse by inversion of the document read
* Scope: msgpack-java is taken as documented; byte arrays in Java have fewer than 2^31 elements
* Theorems: `C98_java_reads`, `C98_names`, `C98_all_refuted`

### C99 What the Java port writes is read back (partial)

* Modelled: `MsgpackCodec.encode` of the Java port with `Document.validateSchema`, `Document.compile` and the writers of values, arguments, schema, texts and columns, over a packer that fails like msgpack-java
* Proof: what is written is shown to be the layout of a document as the Python port writes it, with the parts that the offset store of each text (C95, C97) cuts; then the readers of both ports are run on that layout, by induction over columns, rows and layers
* Scope: extension values are outside the Python direction (not modelled there); that every document comes back to Java is false: witnesses in the refuted theorems
* Theorems: `C99_python_reads`, `C99_java_again`, `C99_java_all_refuted`, `C99_unchecked_refuted`

### C100 The byte buffer of the Java port gives back what was written (proved)

* Modelled: Model_JBuffer: every method of ByteOutputBuffer, with arrays of fixed size and ints that wrap around; the loop of DeflateCodec over any step function (java.util.zip itself is not modelled)
* Proof: invariant: full buffers, a current one, its position, and the bytes so far; induction over the loop (at least one byte each time) and over the sequence of writes; fuel is shown sufficient, and insufficient however large for empty buffers
* Scope: All sequences of writes by invariant; java.util.zip is a parameter (any state, any step), so the theorems on DeflateCodec are about its loop only.
* Theorems: `C100_collects`, `C100_outside`, `C100_too_much`, `C100_none`, `C100_deflate`, `C100_deflate_stuck`, `C100_deflate_broken`

### C101 The parts of a written document are found without decoding it (Java) (partial)

* Modelled: Model_JDocument: every method of MsgpackDocument, with the positions and the schema as state (also after an exception) and the reading past the array; decoding as in C98
* Proof: from the layout of what either port writes (C98, C99): each section is its size and as many bytes; positions by lengths of the parts; the two readings of properties and schema are the same function on the same bytes
* Scope: Proved for every written document; false of the code: layersCompartment holds only the first layer, a document without layers raises at the first call, and the constructor from compartments leaves out the header.
* Theorems: `C101_compartments_partial`, `C101_no_layers`, `C101_together_fails`, `C101_header`, `C101_header_refused`, `C101_layers_refuted`

### C102 Editing documents in the Java port (partial)

* Modelled: Document.java 65-238 (add, remove), Layer.java 105-127 (addField, removeField), Schema.java 56-92, Node.java 56-116 (builder), 209-301 (put, get, remove), type() of all values and DataType.equals, on documents as values (references are names and positions)
* Proof: builder: exact iff by induction on the calls; removal: every scan over layers decided for types that DataTypes makes, the cascade as a map over the layers, with [without] as an order preserving subsequence; histories: an invariant (rows hold only declared fields, each value described by its type and existing in the document, monotone under all operations) over an inductive set of reachable documents, then C99
* Scope: Documents made by the validating operations are read back; remove does not remove the text or the layer, does not look at references to a layer, and a second layer of one name leaves dangling references (refuted with witnesses).
* Theorems: `C102_builder`, `C102_builder_refuses`, `C102_empty_array`, `C102_remove_text`, `C102_remove_text_cascade`, `C102_remove_layer`, `C102_made_ok`, `C102_made_again`, `C102_made_declared`, `C102_add_text`, `C102_add_field`, `C102_add_layer`, `C102_add_node`, `C102_remove_field`, `C102_set_prop`, `C102_no_layer`, `C102_removed_refuted`, `C102_replaced_refuted`, `C102_put_refuted`, `C102_put_get`

### C103 Whatever the Java port decodes is a document that holds together (proved)

* Modelled: java_decode of Model_JCodec.v on any list of bytes
* Proof: each reader is shown to keep an invariant of what it returns and that the rest are bytes (Proof_JDecode.v, Proof_JDecode2.v, Proof_JDecode3.v): values are first raw, with numbers in place of nodes, and become references field by field; the second half puts this together with C99; to_float is shown to give floats
* Scope: The three refuted theorems show that the conditions of the second half are not ensured by decoding: a reversed span, a type naming no text (such a document cannot be written), and a property 2^64-1, which becomes the long -1 and then the int -1. Malformed UTF-8 is an error in the model, and two layers of one name are not modelled.
* Theorems: `C103_decoded`, `C103_document`, `C103_again`, `C103_python`, `C103_rounded`, `C103_forward_refuted`, `C103_named_refuted`, `C103_number_refuted`

### C104 Documents and document files that end too early, in the Java port (proved)

* Modelled: java_decode (every reader it is made of), java_encode, sr_open, sr_advance, sr_next_raw
* Proof: each reader is shown steady: on more bytes the same result, on fewer either the same or OutOfData; steadiness is closed under sequence, choice and recursion; files: induction over blocks, with an invariant for the reader before a torn block
* Theorems: `C104_extent`, `C104_written`, `C104_file`

### C105 Documents in Hadoop jobs (partial)

* Modelled: DocumentWritable (getDocument, getMsgpackBlob, setters, write, readFields), DocriaWriter, nextKeyValue and initialize of the record reader of DocriaInputFormat; not getProgress, job configuration and file systems
* Proof: carries: what bytes a writable stands for; induction over the sequence of writables and over calls; files by the theorems about DocumentStreamWriter and DocumentStreamReader (C90)
* Scope: Two parts are false of the code and refuted: a writable that has bytes writes these whatever is done with the document that getDocument shows (C105_edits_lost says exactly so for all calls; C105_shown_refuted is a witness), and the file of a task without documents cannot be opened (C105_empty_refuted, for every codec and block size). Documents that the Java port cannot read again are excluded, as in C99.
* Theorems: `C105_written_read`, `C105_document`, `C105_many`, `C105_cut`, `C105_set`, `C105_nothing`, `C105_edits_kept`, `C105_edits_lost`, `C105_shown_refuted`, `C105_job_file`, `C105_job_documents`, `C105_closed`, `C105_input`, `C105_input_cut`, `C105_empty_refuted`

### C106 Values of the Java port as text, numbers, truth values, bytes and nodes (partial)

* Modelled: stringValue, boolValue, intValue, longValue, doubleValue, binaryValue, nodeValue, nodeArrayValue, spanValue, nodeSpanValue of all classes of values; Integer.parseInt and Long.parseLong with their overflow checks, Base64, the casts between int, long and double on bit patterns
* Proof: loop invariant of parseInt (the negated number so far is within the limit); doubles in units of 2^-1074 as exact integers: every double of size 2^k or more is a multiple of 2^(k-52), so the nearest multiple is the nearest double; Base64 inverse by induction over groups of three
* Scope: Two parts are false of the code and refuted: boolValue of a DoubleValue is the opposite of that of the same whole number as IntValue (for every whole number up to 2^53; C106_truth_of_double says exactly when it is true), and stringValue of a DoubleValue is null. Double.parseDouble (doubleValue of texts) is not modelled.
* Theorems: `C106_text_of_number`, `C106_number_of_text`, `C106_int`, `C106_long`, `C106_double`, `C106_truth`, `C106_truth_of_double_refuted`, `C106_truth_of_double`, `C106_text_of_double_refuted`, `C106_bytes`, `C106_extension`, `C106_node`, `C106_nodes`, `C106_span`, `C106_nodespan`, `C106_one_node`, `C106_between`, `C106_missing`, `C106_own_bytes`, `C106_own_span`, `C106_own_nodespan`, `C106_own_kind`, `C106_own_numbers`

### C107 Making, comparing and hashing values of the Java port; documents as values (partial)

* Modelled: Values.get with both constructors of NodeArrayValue; equals and hashCode of all classes of values and of nodes; DocumentValue with its two states, and every edit of C102 through documentValue()
* Proof: case analysis against an independent relation; doubleToLongBits against sign, exponent and fraction; polynomial congruence mod 2^32 by induction; the state after any sequence of calls in closed form by induction, composed with C99
* Scope: Two parts are false of the code and refuted: a list of nodes of several layers is accepted where the same nodes as an array are refused, and two extension values (spans, node arrays) with one content are not equal. Everything else is proved.
* Theorems: `C107_made`, `C107_refused`, `C107_array_or_list_refuted`, `C107_equal`, `C107_symmetric`, `C107_transitive`, `C107_content_refuted`, `C107_hash`, `C107_string_hash`, `C107_bytes_hash`, `C107_int_hash`, `C107_long_hash`, `C107_double_hash`, `C107_written`, `C107_bytes`, `C107_bad_bytes`, `C107_again`, `C107_text`, `C107_no_text`

### C108 What MsgpackCodec.debug prints (partial)

* Modelled: MsgpackCodec.debug as a program over the unpacker that prints lines; a line is its format and the values given to it
* Proof: the program is run over the layout of an encoded document (C08) by induction over types, fields and texts; printing is injective on encoded documents; running on a prefix by induction over the program
* Scope: One part is false of the code and refuted: the magic is printed, not checked, so bytes that are no document are shown without an error. Everything else is proved.
* Theorems: `C108_shown`, `C108_tells`, `C108_cut`, `C108_numbers`, `C108_magic_refuted`

### C109 Layers as data frames (partial)

* Modelled: NodeLayerCollection.to_pandas up to the dictionary given to DataFrame
* Proof: induction over the requested fields against an independent relation on cells
* Scope: Two parts are false of the code and refuted: a field called __ref is replaced by the nodes, and a span field holding None becomes the word None when spans are shown as text. Everything else is proved. DataFrame itself is not modelled: the dictionary given to it is.
* Theorems: `C109_cells`, `C109_order`, `C109_made`, `C109_ref_refuted`, `C109_none_refuted`

### C110 From Python through Java and back (proved)

* Modelled: both codecs of both ports (C08, C98, C99); the maps of a Java document in any order
* Proof: C98 and C99 composed: what Java reads is a document that holds what it declares, so are its reorderings, and the two relations compose value by value; for the bytes, Java's writer is shown equal to the layout of the file (Proof_Through3-4), whose parts are the same (Proof_Through5) or moved (Proof_Through6)
* Scope: C110_same_bytes_refuted shows why texts must not be empty for the bytes to be the same: an empty text costs one byte more in the Java port.
* Theorems: `C110_back`, `C110_written`, `C110_any_order`, `C110_same_bytes_refuted`

### C111 Declaring layers; a document as a mapping (proved)

* Modelled: model.py 1217-1248, 1293-1357, 1770-1835, 1868-1873, 1925-1935: schema objects that layers may share, what callers may give as a type, the mapping of a document
* Proof: induction over the fields given; an invariant over programs of calls (layers with schema objects of their own have the declared defaults); C23 for deleting
* Scope: C111_stale_refuted shows why a schema object of its own is needed: with a shared one the default values of the other layer are out of date.
* Theorems: `C111_set`, `C111_set_all`, `C111_add`, `C111_defaults`, `C111_shared`, `C111_stale_refuted`, `C111_layer`, `C111_delete`, `C111_maintext`, `C111_repr`

### C112 Which documents the Java port writes (proved)

* Modelled: Document.java 290-356, MsgpackCodec.java 33-415 (the model of C99)
* Proof: a bound for each writer that is composed over concatenation, arrays, maps and sections; sums over columns and rows exchanged; the schema check as one pass over the field types; each writer succeeds or is refused for a length
* Scope: Names and strings with an unpaired surrogate are outside C112_written and C112_long: the library writes a question mark for one, which is not modelled.
* Theorems: `C112_written`, `C112_schema`, `C112_spans`, `C112_long`, `C112_huge`

### C113 From Java through Python and back (proved)

* Modelled: the models of C25, C98 and C99 together
* Proof: what Java reads again (C99) is a Java view (C98) of what Python has read; both are cut at the same positions (C110), so the objects written are the same
* Scope: C113_other_bytes_refuted: why lists of no nodes and empty texts are excluded.
* Theorems: `C113_same_bytes`, `C113_valid`, `C113_other_bytes_refuted`

### C114 Nodes with fields of their own (proved)

* Modelled: ConcreteNode with its interface of getters and setters, over all types of objects and values
* Proof: an invariant of all calls: the map of the node is sorted, holds no field of the class, and every field has the value given last
* Scope: C114_own_refuted, C114_half_refuted: what holds of ordinary nodes only.
* Theorems: `C114_values`, `C114_as_plain`, `C114_visits`, `C114_builder`, `C114_reference`, `C114_reference_refused`, `C114_inherited`, `C114_stops`, `C114_own_refuted`, `C114_half_refuted`

### C115 The with statement of the document writer (proved)

* Modelled: the writer over a file with a path, open and closed; bodies of with statements that end anywhere
* Proof: by induction on the body: an open writer does what the writer of C32 does, and a write that raises has either changed nothing or cannot be packed at all
* Scope: C115_mode_refuted, C115_append_refuted: what does not hold of DocumentIO.write and of mode ab.
* Theorems: `C115_with`, `C115_read`, `C115_modes`, `C115_closed`, `C115_skips`, `C115_mode_refuted`, `C115_append_refuted`

### C116 What is refused, and with which exception (proved)

* Modelled: pack of Model_Msgpack.v, compile of Model_Document.v, BoundaryReader, the document writer, repr of a document
* Proof: for pack by induction on the object against an inductive relation of refused objects that names the first flaw; undeclared fields by induction on the layers, with the check of a layer as an alternative (Proof_Refused2.v); the others by cases
* Theorems: `C116_packed`, `C116_missing`, `C116_undeclared`, `C116_unchecked`, `C116_main_text`, `C116_open`, `C116_seek`, `C116_write`, `C116_repr`, `C116_repr_long`

### C117 What a file says about its document (proved)

* Modelled: compile, codec_encode, layout and pack of Model_Document.v, Model_Codec.v and Model_Msgpack.v
* Proof: against a description of the file in terms of the document (Spec_Contents.v) and the byte format of C78; by cases on the values a field may hold, with the positions from compile and the parts of the text from its segmentation; uniqueness of the contents by cases, which carries the round trip over to every other spelling; JSON objects by lookups in their dictionaries
* Theorems: `C117_contents`, `C117_unique`, `C117_read`, `C117_json`, `C117_json_read`

### C118 What the Java decoder refuses (proved)

* Modelled: java_decode with jread_props, jread_schema, jread_texts and jread_layer of Model_JCodec.v
* Proof: against a list of flaws (Spec_JRefused.v) over the byte layout of the Python encoder; by induction over what comes before the flaw, with what each reader leaves of the bytes. References (jresolve) against Spec_JRefs.v, over the columns that the readers return; the fields are unlike because jread_fields refuses others, and a reference field holds positions because of how its cells are read. The code goes through the fields by name (TreeMap), the model in the order of the file, so which of several refused fields of one layer is met first is left open. Cells (jcell) against Spec_JCells.v, by the kind of the object that the MessagePack reader finds where the cell begins, after the layers, columns and cells that the readers take. Whether a span, a cell of one object or a column of such cells is read or refused is an equivalence, over whole objects. Not shown: cells that end in their middle. The assertion on a node range that is no pair (AssertionError) is only seen when Java runs with assertions on
* Scope: the flaw of a node range that is no pair is an assertion of Java and so only seen with assertions on; cells that end in their middle are not part of this claim
* Theorems: `C118_refused`, `C118_short`, `C118_magic`, `C118_references`, `C118_one`, `C118_read`, `C118_special`, `C118_layer`, `C118_cell`, `C118_column`, `C118_span`

## Findings

Statements one would expect but that are false of the code at the pinned commit, each with a `_refuted` theorem whose witness is
checked by computation, are named above under the property they belong to.

## Checking

`cd rocq && coq_makefile -f _CoqProject -o Makefile && make -j4` builds everything; each `Prop_*.v` prints the assumptions of its theorems.
