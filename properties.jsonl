{"id": "C01", "title": "Slicing a text is Python string slicing", "statement": "text[a:b] returns a span whose string is exactly s[a:b] of the underlying Python string, with 0 <= start <= stop <= len, whenever the normalised bounds are not reversed; it raises DataValidationError exactly when the normalised stop is before the normalised start.", "quantifier": "every string and every pair of (possibly absent, negative or out-of-range) slice bounds", "why_tests_cant": "bounds range over all integers and strings over all lengths", "anchors": ["py/docria/model.py:Text.__getitem__", "py/docria/model.py:TextSpan.__str__"]}
{"id": "C02", "title": "Tuple indexing of a text is strict", "statement": "text[a, b] returns exactly the span [a, b) when 0 <= a <= b <= len(text), and raises DataValidationError for every other pair.", "quantifier": "every string and every pair of integers", "why_tests_cant": "all integer pairs, including negatives and values past the end", "anchors": ["py/docria/model.py:Text.__getitem__"]}
{"id": "C03", "title": "Slicing a span composes", "statement": "span[a:b] has the string str(span)[a:b], lies inside span, and fails exactly when the normalised bounds are reversed.", "quantifier": "every in-bounds span of every text and every pair of slice bounds", "why_tests_cant": "composition of two normalisations over unbounded integers", "anchors": ["py/docria/model.py:TextSpan.__getitem__", "py/docria/model.py:Text.__getitem__"]}
{"id": "C04", "title": "Integer-indexing a span stays inside the span", "statement": "span[i] is the character str(span)[i] for -len(span) <= i < len(span). (The full claim, that every other i raises IndexError as a Python string does, is false of the code.)", "quantifier": "every in-bounds span and every integer i", "why_tests_cant": "all integers and spans; the violation needs an index exactly at or past the end", "anchors": ["py/docria/model.py:TextSpan.__getitem__"]}
{"id": "C05", "title": "covered_by and intersected_by are interval inclusion and overlap", "statement": "a.covered_by(b) holds iff every character position of a (for a non-empty a) is a position of b; for non-empty spans a.intersected_by(b) holds iff some position belongs to both; intersection is symmetric and cover is a preorder; a span and the tuple with its offsets give the same answer.", "quantifier": "every pair of spans with start <= stop", "why_tests_cant": "all integer pairs", "anchors": ["py/docria/model.py:TextSpan.covered_by", "py/docria/model.py:TextSpan.intersected_by", "py/docria/algorithm.py:is_covered_by"]}
{"id": "C06", "title": "trim removes surrounding whitespace and nothing else", "statement": "trim() returns a span inside the original, from which only whitespace was dropped, and whose first and last characters are not whitespace unless it is empty. (The last clause is false of the code when both ends are whitespace.)", "quantifier": "every string, every whitespace classifier, every in-bounds span", "why_tests_cant": "strings of every length with whitespace anywhere", "anchors": ["py/docria/model.py:TextSpan._trim_offsets", "py/docria/model.py:TextSpan.trim", "py/docria/model.py:TextSpan.trim_"]}
{"id": "C07", "title": "Text segmentation is lossless", "statement": "Encoding a text as segments cut at the collected offsets and decoding it again gives back the same string, and each offset's segment id decodes to the same offset.", "quantifier": "every string and every set of in-range offsets", "why_tests_cant": "all strings and all offset sets (duplicates, empty text, offsets at 0 and at the end)", "anchors": ["py/docria/model.py:Text.compile", "py/docria/model.py:Document.compile", "py/docria/codec.py:MsgpackCodec.compute_text_offsets"]}
{"id": "C08", "title": "A layer behaves as an ordered list of nodes under every history", "statement": "After any sequence of add, add_many, remove (one or many), detach, retain, sort, compact and document compilation, iterating the layer yields exactly the nodes a plain ordered list would hold after the corresponding append/filter/stable-sort operations, and len(layer) is their number.", "quantifier": "every finite history of layer operations, including ones that raise", "why_tests_cant": "histories are unbounded; automatic compaction depends on the whole history", "anchors": ["py/docria/model.py:NodeLayerCollection.add", "py/docria/model.py:NodeLayerCollection.add_many", "py/docria/model.py:NodeLayerCollection.remove", "py/docria/model.py:NodeLayerCollection.retain", "py/docria/model.py:NodeLayerCollection.sort", "py/docria/model.py:NodeLayerCollection.compact", "py/docria/model.py:NodeLayerCollection.__iter__", "py/docria/model.py:NodeLayerCollection.__len__"]}
{"id": "C09", "title": "Membership, index and iteration agree", "statement": "In every reachable state, `node in layer` holds iff iteration yields the node, each node is yielded once, layer[node.i] is node, and node.i increases along iteration order; with no removals since the last compaction node.i is the iteration position.", "quantifier": "every reachable layer state", "why_tests_cant": "depends on the history of removals and compactions", "anchors": ["py/docria/model.py:NodeLayerCollection.__contains__", "py/docria/model.py:NodeLayerCollection.__getitem__", "py/docria/model.py:Node.i"]}
{"id": "C10", "title": "left and right are predecessor and successor", "statement": "layer.left(n) / layer.right(n) return the node directly before / after n in iteration order, or None at the ends, regardless of gaps left by removals.", "quantifier": "every reachable layer state and every node of it", "why_tests_cant": "gaps of any length and position", "anchors": ["py/docria/model.py:NodeLayerCollection.left", "py/docria/model.py:NodeLayerCollection.right", "py/docria/model.py:Node.left", "py/docria/model.py:Node.right"]}
{"id": "C11", "title": "Node spans denote contiguous runs", "statement": "NodeSpan(a, b) iterates exactly the nodes from a to b inclusive in layer order, len() is their number, first/last are a and b; a.iter_span(b) is the same whichever of the two comes first.", "quantifier": "every reachable layer state and every pair of its nodes", "why_tests_cant": "all histories and pairs", "anchors": ["py/docria/model.py:NodeSpan", "py/docria/model.py:Node.iter_span", "py/docria/model.py:NodeLayerCollection.iter_nodespan"]}
{"id": "C12", "title": "remove removes exactly the given nodes", "statement": "remove(nodes) makes exactly these nodes dangling and drops them from iteration, keeps the order, identity and field values of all others, and raises ValueError at the first node that is not (or no longer) in the layer, having removed exactly the ones before it.", "quantifier": "every reachable layer state and every list of nodes (duplicates and foreign nodes included)", "why_tests_cant": "all subsets and orders; failure can occur at any point", "anchors": ["py/docria/model.py:NodeLayerCollection.remove", "py/docria/model.py:Node.detach", "py/docria/model.py:Node.is_dangling"]}
{"id": "C13", "title": "Compaction is invisible", "statement": "compact() (explicit, or automatic inside remove) leaves iteration order, length, membership and all field values unchanged and makes node.i the iteration position. After every successful remove at least 75% of the slots are live or there are at most 16 slots. (As a bound on every state, not only after remove, this is false.)", "quantifier": "every reachable layer state", "why_tests_cant": "depends on unbounded histories of removals", "anchors": ["py/docria/model.py:NodeLayerCollection.compact", "py/docria/model.py:NodeLayerCollection.remove"]}
{"id": "C14", "title": "sort is a stable sort", "statement": "sort(keyfn) rearranges the nodes into the stable ascending order of their keys, changes no field and renumbers nodes by position.", "quantifier": "every reachable layer state and every key function into a totally ordered type", "why_tests_cant": "all permutations and tie patterns", "anchors": ["py/docria/model.py:NodeLayerCollection.sort"]}
{"id": "C15", "title": "retain keeps exactly the given nodes", "statement": "retain(nodes) keeps exactly the listed nodes in layer order (repetitions harmless), makes every other node dangling and renumbers. (Holds on layers without gaps; false of the code when an earlier remove left a gap, or when a listed node is foreign.)", "quantifier": "every reachable layer state and list of nodes", "why_tests_cant": "the failure depends on the removal history", "anchors": ["py/docria/model.py:NodeLayerCollection.retain"]}
{"id": "C16", "title": "add(**fields) is atomic and schema-checked", "statement": "add(**fields) either appends one new node whose fields are the defaults overridden by the given ones, all declared fields valid, or raises and leaves the layer unchanged.", "quantifier": "every layer, schema and field dictionary", "why_tests_cant": "all schemas and value combinations", "anchors": ["py/docria/model.py:NodeLayerCollection.add", "py/docria/model.py:NodeLayerCollection.validate"]}
{"id": "C17", "title": "add_many appends in order and fills defaults", "statement": "add_many(nodes) appends the given unbound nodes in order, with defaults filled only where a field is missing; if a node is already bound it raises, and exactly the nodes before it have been appended.", "quantifier": "every reachable layer state, every list of nodes and both option settings", "why_tests_cant": "lists of any length, duplicates anywhere", "anchors": ["py/docria/model.py:NodeLayerCollection.add_many"]}
{"id": "C18", "title": "add_field and remove_field touch only that field", "statement": "add_field(name, type) declares the field and sets it to the default in every node of the layer (when there is a default); remove_field(name) undeclares it and deletes it from every node; no other field of any node changes; adding then removing restores the layer.", "quantifier": "every layer, field name and type", "why_tests_cant": "all layers and schemas", "anchors": ["py/docria/model.py:NodeLayerCollection.add_field", "py/docria/model.py:NodeLayerCollection.remove_field"]}
{"id": "C19", "title": "Numeric field validation is the exact machine range", "statement": "An int32 field accepts exactly the Python ints (bools included) in [-2^31, 2^31-1], an int64 field those in [-2^63, 2^63-1]; float, bool, str and bytes fields accept exactly values of their Python type (length below 2^31 for str/bytes).", "quantifier": "every value and every field type", "why_tests_cant": "all integers, both sides of each limit", "anchors": ["py/docria/model.py:DataTypeInt32.is_valid", "py/docria/model.py:DataTypeInt64.is_valid", "py/docria/model.py:DataTypeFloat.is_valid", "py/docria/model.py:DataTypeBool.is_valid", "py/docria/model.py:DataTypeString.is_valid", "py/docria/model.py:DataTypeBinary.is_valid"]}
{"id": "C20", "title": "validate decides field validity and never returns False", "statement": "layer.validate(node) returns True iff every declared field present in the node holds a valid value for its type; otherwise it raises (it never returns False), so callers that ignore its result still cannot accept an invalid node.", "quantifier": "every layer, schema and node", "why_tests_cant": "all schemas, values and combinations of declared and undeclared fields", "anchors": ["py/docria/model.py:NodeLayerCollection.validate", "py/docria/model.py:Document.compile"]}
{"id": "C21", "title": "Numeric type merging is a join", "statement": "cast_up over {bool,i32,i64,f64} is commutative on type names, associative, idempotent, and yields the least type name above both; cast_up_possible holds iff the type names are equal or both numeric.", "quantifier": "every pair and triple of data types", "why_tests_cant": "all option dictionaries", "anchors": ["py/docria/model.py:DataType.cast_up", "py/docria/model.py:DataType.cast_up_possible"]}
{"id": "C22", "title": "A document that compiles has no undeclared fields and no missing targets", "statement": "If encoding succeeds with default options, every field of every node is declared in its layer's schema, every referenced layer and text name exists in the document, and every declared field value is valid; otherwise it raises and no bytes are produced.", "quantifier": "every document", "why_tests_cant": "all schemas and node contents", "anchors": ["py/docria/model.py:Document.compile", "py/docria/codec.py:Codec.encode"]}
{"id": "C23", "title": "remove_layer refuses to break references", "statement": "remove_layer(name) without cascade raises and changes nothing if another layer declares a noderef or noderef_many field to it, otherwise removes exactly that layer. (Full claim, covering node spans and cascading field removal, is false of the code.)", "quantifier": "every document and layer name", "why_tests_cant": "all schemas", "anchors": ["py/docria/model.py:Document.remove_layer"]}
{"id": "C24", "title": "MessagePack value encoding round-trips", "statement": "Unpacking the packing of any supported value followed by arbitrary further bytes returns that value and leaves exactly the further bytes; packing picks the shortest format for lengths and integers.", "quantifier": "every nested value of nil/bool/int/float/str/bin/array/map within the format limits and every suffix", "why_tests_cant": "all nestings, sizes and integer magnitudes", "anchors": ["py/docria/codec.py:MsgpackCodec.encode", "py/docria/codec.py:MsgpackCodec.decode"]}
{"id": "C25", "title": "Documents survive a MessagePack round trip", "statement": "For every valid document, MsgpackCodec.encode succeeds and decode of the result is a document with the same properties, the same texts, the same layers and fields in the same order with the same declared types, and node by node the same field values, where node references and node spans point to the node at the same position of the same layer (fields holding None or an empty node list come back absent).", "quantifier": "every valid document: any number of texts, layers, fields, nodes, spans and (cyclic) references", "why_tests_cant": "unbounded documents with arbitrary reference graphs and offset sets", "anchors": ["py/docria/codec.py:Codec.encode", "py/docria/codec.py:MsgpackCodec.encode", "py/docria/codec.py:MsgpackCodec.decode", "py/docria/codec.py:Codec.commit_layers", "py/docria/model.py:Document.compile"]}
{"id": "C26", "title": "Re-encoding a decoded document is byte-identical", "statement": "encode(decode(encode(doc))) == encode(doc).", "quantifier": "every valid document", "why_tests_cant": "unbounded documents", "anchors": ["py/docria/codec.py:MsgpackCodec.encode", "py/docria/codec.py:MsgpackCodec.decode"]}
{"id": "C27", "title": "Encoding does not change the document", "statement": "Encoding (compiling) a document changes no field value, no iteration order, no membership and no schema; it only renumbers nodes to their iteration position.", "quantifier": "every document, also when encoding raises", "why_tests_cant": "all documents and failure points", "anchors": ["py/docria/model.py:Document.compile", "py/docria/codec.py:Codec.encode"]}
{"id": "C28", "title": "JSON object round trip", "statement": "JsonCodec.decode_object(encode_object(doc)) reproduces the document in the same sense as the MessagePack round trip.", "quantifier": "every valid document", "why_tests_cant": "unbounded documents", "anchors": ["py/docria/codec.py:JsonCodec.encode_object", "py/docria/codec.py:JsonCodec.decode_object"]}
{"id": "C29", "title": "Lazy decoding equals full decoding", "statement": "For the bytes of any valid document, MsgpackDocument(data).document(), .properties(), .schema() and .texts(), called in any order and any number of times, return the same results as the corresponding parts of MsgpackCodec.decode(data).", "quantifier": "every valid document and every sequence of accessor calls", "why_tests_cant": "byte positions are computed from variable-length prefixes", "anchors": ["py/docria/codec.py:MsgpackDocument._parse_state", "py/docria/codec.py:MsgpackDocument.document", "py/docria/codec.py:MsgpackDocument.properties", "py/docria/codec.py:MsgpackDocument.texts", "py/docria/codec.py:MsgpackDocument.schema"]}
{"id": "C30", "title": "Selecting properties is projection", "statement": "MsgpackDocument.properties(*keys) returns exactly the document properties whose key is among keys (all of them when no key is given); the analogous claim for texts(*names) is false of the code.", "quantifier": "every document and key list", "why_tests_cant": "all key subsets and property values that must be skipped", "anchors": ["py/docria/codec.py:MsgpackCodec.decode_property", "py/docria/codec.py:MsgpackCodec.decode_texts"]}
{"id": "C31", "title": "Node references are never silently retargeted", "statement": "A reference that is not to a live node of the named layer of the document makes encoding fail instead of being written as a reference to some other node. (False of the code for documents that were decoded, for removed layers and for nodes of another document.)", "quantifier": "every document", "why_tests_cant": "depends on histories mixing decode, remove and encode", "anchors": ["py/docria/model.py:DataTypeNoderef.is_valid", "py/docria/codec.py:Codec.encode", "py/docria/codec.py:MsgpackCodec.decode_schema"]}
{"id": "C32", "title": "Document files round-trip", "statement": "Reading a file written by MsgpackDocumentWriter yields exactly the written documents in order, for every block size and every pattern of explicit flushes, for any codec whose decompress inverts compress.", "quantifier": "every list of documents, block size, flush pattern and lossless codec", "why_tests_cant": "unbounded document lists and interleavings of write and flush", "anchors": ["py/docria/collection.py:MsgpackDocumentWriter", "py/docria/collection.py:MsgpackDocumentReader"]}
{"id": "C33", "title": "References give random access", "statement": "Every document yielded by the reader carries a ref; get(ref) returns that same document whatever calls were made before, and iteration continued after get proceeds with the next document.", "quantifier": "every file and every sequence of next/get calls", "why_tests_cant": "all call sequences", "anchors": ["py/docria/collection.py:MsgpackDocumentReader.get", "py/docria/collection.py:MsgpackDocumentReader.__next__", "py/docria/collection.py:MsgpackDocumentBlock"]}
{"id": "C34", "title": "A truncated file yields a prefix", "statement": "If the file is cut at any byte after its header (writer crashed), reading yields exactly the documents of the completely written blocks and then stops.", "quantifier": "every crash point of every written file", "why_tests_cant": "every byte position is a crash point", "anchors": ["py/docria/collection.py:MsgpackDocumentReader.readblock", "py/docria/collection.py:MsgpackDocumentWriter.flush"]}
{"id": "C35", "title": "Boundary files interleave markers and data losslessly", "statement": "The bytes produced by the boundary writer are: one byte with the exponent b, then the written data with a 4-byte marker inserted at each absolute position k*2^b (k >= 1) that is followed by more data, whatever the sizes of the individual writes.", "quantifier": "every sequence of writes and splits and every b in [12,30]", "why_tests_cant": "chunking of writes against 2^b boundaries", "anchors": ["py/docria/collection.py:_BoundaryWriter.write", "py/docria/collection.py:_BoundaryWriter._write_boundary"]}
{"id": "C36", "title": "Boundary markers point to the last record start", "statement": "The marker at position k*2^b is the big-endian signed 32-bit distance from there back to the absolute position of the latest split before it (saturating at -2^31).", "quantifier": "every sequence of writes and splits and every b in [12,30]", "why_tests_cant": "alignment of splits against boundaries", "anchors": ["py/docria/collection.py:_BoundaryWriter.split", "py/docria/collection.py:_BoundaryWriter._write_boundary"]}
{"id": "C37", "title": "The boundary reader returns the written data", "statement": "Reading a boundary file returns the written data without markers, for every way of splitting the reads. (False of the code in general: fails when a read ends exactly on a boundary, and after about 2^(2b-2) bytes; proved for reads within the range where the reader's position arithmetic is exact.)", "quantifier": "every payload, every b in [12,30], every sequence of read sizes", "why_tests_cant": "alignment of reads against boundaries; needs megabytes of data to show", "anchors": ["py/docria/collection.py:_BoundaryReader.read"]}
{"id": "C38", "title": "Logical positions map to the right absolute positions", "statement": "_BoundaryReader.seek(o) positions the underlying file at the byte that holds logical byte o of the data, and tell() inverts it except directly before a marker.", "quantifier": "every payload, b and offset", "why_tests_cant": "alignment arithmetic", "anchors": ["py/docria/collection.py:_BoundaryReader._to_absolute", "py/docria/collection.py:_BoundaryReader.seek", "py/docria/collection.py:_BoundaryReader.tell"]}
{"id": "C39", "title": "Index search is exact", "statement": "Searching a file index returns, in file order, exactly the documents whose indexed properties equal all given conditions.", "quantifier": "every document file, property list and condition set", "why_tests_cant": "all files and conditions", "anchors": ["py/docria/collection.py:DocumentFileIndex.build", "py/docria/collection.py:DocumentFileIndex.search"]}
{"id": "C40", "title": "Tar collections keep order", "statement": "TarMsgpackReader yields exactly the documents written by TarMsgpackWriter in order, skipping the root directory entry, and the generated member names are pairwise distinct.", "quantifier": "every list of documents", "why_tests_cant": "unbounded lists; name padding overflow past 99999", "anchors": ["py/docria/collection.py:TarMsgpackWriter.write", "py/docria/collection.py:TarMsgpackReader.__next__"]}
{"id": "C41", "title": "bfs visits each reachable node once, by distance", "statement": "bfs(start, children) terminates on every finite graph, yields each node reachable from start exactly once, in non-decreasing depth, and the depth reported is the length of the shortest path; with is_result it yields the sub-sequence satisfying it.", "quantifier": "every finite directed graph (cycles, self-loops, multi-edges) and start node", "why_tests_cant": "all graphs", "anchors": ["py/docria/algorithm.py:bfs"]}
{"id": "C42", "title": "dfs is left-to-right preorder", "statement": "dfs(start, children) terminates on every finite graph and yields each reachable node exactly once in the order of recursive left-to-right preorder traversal.", "quantifier": "every finite directed graph and start node", "why_tests_cant": "all graphs", "anchors": ["py/docria/algorithm.py:dfs"]}
{"id": "C43", "title": "dfs_leaves yields the reachable leaves", "statement": "dfs_leaves yields every reachable node without children exactly once. (The converse, that only childless nodes are yielded, is false of the code on graphs with cycles or shared children; proved for trees.)", "quantifier": "every finite directed graph and start node", "why_tests_cant": "all graphs", "anchors": ["py/docria/algorithm.py:dfs_leaves"]}
{"id": "C44", "title": "children_of yields the children in the given fields", "statement": "children_of(layer, f1..fk)(n) yields the nodes referenced by fields f1..fk of n in that order. (True for one field; false of the code for two or more.)", "quantifier": "every layer, field list and node", "why_tests_cant": "all reference structures", "anchors": ["py/docria/algorithm.py:children_of"]}
{"id": "C45", "title": "span_translate maps through the covering interval", "statement": "With non-overlapping non-empty mapping intervals, each remapped node whose first and last character lie in mapping intervals gets the span from the image of its first character to just after the image of its last; already mapped nodes are untouched; a position outside every interval raises.", "quantifier": "every mapping and every set of nodes", "why_tests_cant": "all interval arrangements", "anchors": ["py/docria/algorithm.py:span_translate"]}
{"id": "C46", "title": "group_by_span groups exactly the intersecting nodes", "statement": "With resolution intersect each group gets, per layer, exactly the nodes whose span shares a position with the group's span (an empty span counts as a point, matched by [start, stop) spans containing it and by empty spans at the same place), each once; groups come ordered by start; nodes without a span are ignored.", "quantifier": "every set of groups and layers", "why_tests_cant": "all interval arrangements including ties and empty spans", "anchors": ["py/docria/algorithm.py:group_by_span"]}
{"id": "C47", "title": "Cover resolution and empty-group filtering", "statement": "With resolution cover each group keeps exactly the intersecting nodes that lie inside it; with include_empty_groups=False exactly the groups with no node left are dropped.", "quantifier": "every set of groups and layers", "why_tests_cant": "all interval arrangements", "anchors": ["py/docria/algorithm.py:group_by_span", "py/docria/algorithm.py:is_covered_by"]}
{"id": "C48", "title": "dominant_right output is conflict-free and dominant", "statement": "dominant_right returns a sub-list of the given segments, pairwise non-overlapping, in order of position; a segment that beats every segment it overlaps (longer, or equally long and further right) is always returned; every dropped segment overlaps one that beats it.", "quantifier": "every list of segments", "why_tests_cant": "all interval arrangements", "anchors": ["py/docria/algorithm.py:dominant_right", "py/docria/algorithm.py:dominant_right_span"]}
{"id": "C49", "title": "sequence_to_textspans aligns tokens in order", "statement": "The result has exactly one span per token, spans are in non-decreasing order and do not overlap, each is inside the search window, and each is either empty or has exactly the token as its string.", "quantifier": "every token list, text, window and look-ahead k", "why_tests_cant": "all strings and look-ahead settings", "anchors": ["py/docria/algorithm.py:sequence_to_textspans"]}
{"id": "C50", "title": "Predicates form a boolean algebra and queries are filters", "statement": "layer[p] holds exactly the nodes satisfying p, in layer order; p & q, p | q, ~p select intersection, union and complement; update() re-evaluates.", "quantifier": "every layer, predicate and node contents", "why_tests_cant": "all predicate expressions", "anchors": ["py/docria/query.py:NodePredicateAnd", "py/docria/query.py:NodePredicateOr", "py/docria/query.py:NodePredicateInvert", "py/docria/model.py:NodeCollectionQuery"]}
{"id": "C51", "title": "Truncated cells respect the width limit", "statement": "A table cell is shown unchanged if it fits and otherwise as a prefix, ' ... ' and a suffix of the value, never longer than max_column_width (for every admissible option setting).", "quantifier": "every string and option setting", "why_tests_cant": "all lengths and limits", "anchors": ["py/docria/printout.py:truncate", "py/docria/printout.py:PrintOptions"]}
{"id": "C52", "title": "Tables show every column once and the outer rows", "statement": "render_text lays out every column exactly once in order and terminates; when there are more than max_rows rows, the first and last max_rows//2 rows are shown with their own row numbers.", "quantifier": "every table and option setting", "why_tests_cant": "all widths and row counts", "anchors": ["py/docria/printout.py:Table.render_text", "py/docria/printout.py:Table._compile_text"]}
{"id": "C53", "title": "HTML cells are escaped", "statement": "In HTML output the characters <, >, &, double and single quote of string values never appear unescaped.", "quantifier": "every cell string", "why_tests_cant": "all strings", "anchors": ["py/docria/printout.py:Table.format_html"]}
{"id": "C54", "title": "XML string encoding yields only legal characters", "statement": "XmlCodec's string encoder preserves length, maps every character to itself or a space and outputs only characters legal in XML 1.0; legal characters of the basic plane are kept. (Legal characters above U+FFFF are lost.)", "quantifier": "every string", "why_tests_cant": "all code points", "anchors": ["py/docria/codec.py:XmlCodec._string_encoder"]}
{"id": "C55", "title": "A type's default is the default it was given", "statement": "T.int32(d), T.int64(d), T.string(d), T.bool(d), T.float64(d) have default() == d, and for a d of that type in range the type accepts its own default. (False of the code for float64: a non-zero default becomes 0.0 and float64(0.0) has the int 0, which the type rejects.)", "quantifier": "every default value", "why_tests_cant": "all integers, strings and doubles", "anchors": ["py/docria/model.py:DataTypes.int32", "py/docria/model.py:DataTypes.float64", "py/docria/model.py:DataTypes.string", "py/docria/model.py:DataTypes.bool"]}
{"id": "C56", "title": "typeof infers a type that accepts the value", "statement": "If DataTypes.typeof(value) returns a type then that type accepts the value. (False for ints outside 64 bits.)", "quantifier": "every value, every comparison type and every heap", "why_tests_cant": "all values including nodes in any layer state", "anchors": ["py/docria/model.py:DataTypes.typeof"]}
{"id": "C57", "title": "The codec registry is a map", "statement": "register_codec adds a codec under a free name and raises ValueError for a used one without changing anything, unregister_codec removes exactly that name and raises KeyError for an unknown one, and get_codec answers the codec registered last under the name, raising NotImplementedError (or answering None with no_except) for an unknown name.", "quantifier": "every sequence of registry operations", "why_tests_cant": "all sequences", "anchors": ["py/docria/collection.py:register_codec", "py/docria/collection.py:unregister_codec", "py/docria/collection.py:get_codec"]}
{"id": "C58", "title": "The XML tree shows the whole document", "statement": "XmlCodec.encode_tree gives a document element with, in order, every property, every layer's schema, every text cut into segments whose concatenation is the text, and every layer with one n element per node in layer order; each declared field that has a value appears exactly once on its node (numbers in decimal, strings through the string encoder, references as the target's position, spans as segment numbers that delimit exactly the span's text, node spans and arrays as child elements) and nothing else does; valid documents are encoded and encoding changes nothing visible. (False of the code for binary values and for verbose_node_spans, which raise, and texts may put illegal characters into the tree.)", "quantifier": "every valid document, verbose setting and document id", "why_tests_cant": "all documents, schemas and segmentations", "anchors": ["py/docria/codec.py:XmlCodec.encode_tree", "py/docria/codec.py:XmlCodec.encode_intermediate"]}
{"id": "C59", "title": "XML identifiers are unique", "statement": "The xml:id attributes of an encoded tree are the document id and, for each node, document id, layer name and position joined with dots; they are pairwise distinct for all layer names (also names with dots or digits). Node spans refer to nodes by identifier. (The last is false of the code when a document id is given: the reference lacks it.)", "quantifier": "every document and document id", "why_tests_cant": "all layer names and sizes", "anchors": ["py/docria/codec.py:XmlCodec.encode_tree"]}
{"id": "C60", "title": "Node lists know the fields of their nodes", "statement": "NodeList(nodes) keeps the nodes in order, and its fields are exactly those declared by the layers of its nodes or held by nodes outside layers, each with one type that fits; it is refused exactly when a value has no type or types for one field cannot be merged. Indexing by int, slice and list of ints is that of Python lists and keeps the field types. (False of the code for fields whose types differ by name: the merged type is computed and dropped.)", "quantifier": "every list of nodes from any layers, every iteration order of sets", "why_tests_cant": "all combinations of layers, types and set orders", "anchors": ["py/docria/model.py:NodeList.__init__", "py/docria/model.py:NodeList.__getitem__"]}
{"id": "C61", "title": "The text of a node span reaches from its first to its last node", "statement": "text(field) and textspan(field) give the characters from the start of the left node's span to the stop of the right node's; when the spans of the run are in reading order the result covers every node's span and contains its string. (False when the two nodes' spans belong to different texts.)", "quantifier": "every node span, field and text", "why_tests_cant": "all runs and offsets", "anchors": ["py/docria/model.py:NodeSpan.text", "py/docria/model.py:NodeSpan.textspan"]}
{"id": "C62", "title": "Collection operations agree with iteration", "statement": "For layers, node spans, node lists and queries: first, last, len and to_list agree with iteration; validate() passes exactly if all declared fields present are valid; list[field][i] is the i-th node's value. Membership agrees with iteration. (The last is false of the code for node spans and queries, where a node is never in the collection.)", "quantifier": "every consistent document and collection", "why_tests_cant": "all states of a layer including gaps", "anchors": ["py/docria/model.py:NodeCollection.first", "py/docria/model.py:NodeCollection.last", "py/docria/model.py:NodeCollection.to_list", "py/docria/model.py:NodeCollection.validate", "py/docria/model.py:NodeCollection.__contains__", "py/docria/model.py:NodeFieldCollection.__getitem__"]}
{"id": "C63", "title": "The table of a collection shows its nodes", "statement": "str(collection) is a table with the field names in sorted order, one row per node in order of iteration and in each row the representation of every field (NIL if absent), under a caption with the number of nodes; str() succeeds. The row numbers of a node span in HTML are node.i. (False of the code: str() of a layer raises when its name has a percent sign or a value is a node that left its layer; row numbers are wrong after a gap.)", "quantifier": "every consistent document, collection and set of print options", "why_tests_cant": "all layer names, values and gaps", "anchors": ["py/docria/model.py:NodeCollection._table_repr_", "py/docria/model.py:NodeLayerCollection.__str__", "py/docria/model.py:NodeSpan._repr_html_"]}
{"id": "C64", "title": "Values, nodes and documents have a faithful representation", "statement": "A value is shown as NIL, by the repr of a plain value, by layer and number of a node, by the ends (and text) of a node span, or by size and layers of a list; str(node) has a row for each field in order; str(document) always succeeds and str(node) raises exactly for values or nodes outside layers.", "quantifier": "every document, value and set of print options", "why_tests_cant": "all shapes of values", "anchors": ["py/docria/printout.py:get_representation", "py/docria/model.py:Node._table_repr_", "py/docria/model.py:Node.__repr__", "py/docria/model.py:NodeSpan.__repr__", "py/docria/model.py:Document.__str__"]}
{"id": "C65", "title": "Paths in an index of several files lead to the files", "statement": "os.path.abspath and os.path.relpath as used by DocumentIndex keep the place a path leads to: the stored path is relative and leads from the base directory to the file that was added; os.path.normpath gives the normal form (one slash in front of an absolute path, two if it had exactly two; steps up only in front and only in relative paths; no empty names or dots); two spellings of one file share one entry; a search gives what the indexes of the files give, one file after the other. (False of the code unless the search runs in the base directory: elsewhere it fails or reads another file.)", "quantifier": "every working directory, base path, list of files and query", "why_tests_cant": "all spellings with dots, double slashes and parents; all working directories at search time", "anchors": ["py/docria/collection.py:DocumentIndex.__init__", "py/docria/collection.py:DocumentIndex.add", "py/docria/collection.py:DocumentIndex.search"]}
{"id": "C66", "title": "The index of a directory covers its docria files", "statement": "build_msgpack_directory_fileindex takes exactly the names with a stem without dots followed by .docria and at most one of the endings .xz .bz2 .z .lz4; the resulting index finds what the index of each of those files finds. (False of the code for files that really are compressed: the build fails.)", "quantifier": "every directory listing and every content of the files", "why_tests_cant": "all file names; the pattern is a regular expression", "anchors": ["py/docria/collection.py:build_msgpack_directory_fileindex", "py/docria/collection.py:build_msgpack_fileindex"]}
{"id": "C67", "title": "JSON texts: what is read, what is written, and the way back", "statement": "json.loads, as called by JsonCodec.decode, reads exactly the texts of a grammar of JSON (with NaN and the infinities, repeated keys allowed) with blanks around them, gives the one value that the grammar gives, and raises ValueError for every other text; json.dumps raises TypeError exactly for values with bytes in them, writes printable ASCII otherwise, namely the one text with short escapes where there are any, small hexadecimal digits, a comma and a blank between elements and a colon and a blank after keys, and a value whose strings have no high surrogate before a low one (and no NaN with unusual bits) is read back.", "quantifier": "every text and every value", "why_tests_cant": "escapes, surrogate pairs, repeated keys and nesting in all combinations; no test covers all texts that must be refused", "anchors": ["py/docria/codec.py:JsonCodec.encode", "py/docria/codec.py:JsonCodec.decode"]}
{"id": "C68", "title": "JSON text of a document", "statement": "JsonCodec.decode(JsonCodec.encode(doc)) is the same document, encoding it again gives the same text, and it is the document that the MessagePack form gives; decode raises ValueError for a text that is not JSON and DataError for JSON without the header, making nothing. (False of the code for documents with bytes in a field: encode raises TypeError.)", "quantifier": "every valid document whose strings are safe in JSON; every text", "why_tests_cant": "all texts, names and values, with escapes; all texts that are refused", "anchors": ["py/docria/codec.py:JsonCodec.encode", "py/docria/codec.py:JsonCodec.decode"]}
{"id": "C69", "title": "The text of an XML tree", "statement": "The text that XmlCodec.encode_utf8string has written for a tree of elements is XML for exactly that tree (a grammar of XML 1.0 with namespaces; every attribute value is escaped) whenever the tree has XML names, no attribute twice and only XML characters; no text of the grammar stands for two trees, and other trees have no text; writing raises exactly when a name starts with an opening brace and has no closing one. For a tree with XML names and any values at all the text is a particular one: one blank before each attribute and before the end of an empty element, double quotes, seven characters by reference, surrogates by their numbers, all else as it is.", "quantifier": "every tree of elements", "why_tests_cant": "all names and all attribute values, with every character that needs escaping", "anchors": ["py/docria/codec.py:XmlCodec.encode_utf8string"]}
{"id": "C70", "title": "XML text of a document", "statement": "encode_utf8string of a valid document gives an XML text of one tree, the tree that shows its properties, schema, texts, layers and nodes (C58), and changes nothing. (False of the code for control characters in texts, and for field names that are not XML names: the text is no XML, or XML with other fields.)", "quantifier": "every valid document without binary values whose names and texts XML can express", "why_tests_cant": "all documents with all names, texts and values; injection by unusual field names", "anchors": ["py/docria/codec.py:XmlCodec.encode_utf8string", "py/docria/codec.py:XmlCodec.encode_tree"]}
{"id": "C71", "title": "Documents made by programs survive encoding", "statement": "Whatever program of public calls made a document from nothing (texts, layers, nodes, fields, schema changes, removals, sorting, encoding in between, calls that raise), if encode with its checks accepts it, then it is a valid document and its bytes decode to the same document; nothing about references has to be assumed. (Needed, with witnesses: a text is not set twice, a layer name is not used again after remove_layer, no Node in a node span field, values of the declared type in fields whose type has a default.)", "quantifier": "every program of public calls, every document it makes", "why_tests_cant": "all interleavings of calls on the document, its layers and nodes", "anchors": ["py/docria/model.py:Document.add_text", "py/docria/model.py:Document.add_layer", "py/docria/model.py:Document.remove_layer", "py/docria/model.py:Document.compile", "py/docria/codec.py:MsgpackCodec.encode", "py/docria/codec.py:MsgpackCodec.decode"]}
{"id": "C72", "title": "The printed schema tells the schema", "statement": "Document.printschema prints the same text for two documents if and only if they have the same layers with the same fields, in order, of the same types with the same options, whatever the order of the layers and whatever nodes they hold (for layer names without newlines, field names without blanks, options without commas); it raises KeyError exactly if a type is unknown.", "quantifier": "every pair of documents", "why_tests_cant": "all pairs of schemas: tests compare a few printouts", "anchors": ["py/docria/model.py:Document.printschema"]}
{"id": "C73", "title": "Calls touch only the objects they are given", "statement": "However many calls are made on some layers and nodes, returning or raising, every layer and node outside the part they belong to keeps its schema, slots, count, fields, number and owner; in particular no program on one document changes another document, unless it is given one of its layers or nodes.", "quantifier": "every heap, every closed part of it, every sequence of calls", "why_tests_cant": "all sequences of calls and all heaps: a test sees a few objects after a few calls", "anchors": ["py/docria/model.py:NodeLayerCollection.add", "py/docria/model.py:NodeLayerCollection.remove", "py/docria/model.py:NodeLayerCollection.retain", "py/docria/model.py:Document.compile"]}
{"id": "C74", "title": "Pickled and copied documents are equal and independent", "statement": "If a document can be pickled, then unpickling it (in any process), copy.copy and copy.deepcopy give a document with the same properties, texts, layers, fields and nodes whose layers and nodes are all new; no program on the copy changes the original nor the other way round; the copy pickles to the same bytes; a document that encode refuses is not copied.", "quantifier": "every valid document, every program on either copy", "why_tests_cant": "all documents and all later programs: tests pickle a few documents", "anchors": ["py/docria/model.py:Document.__getstate__", "py/docria/model.py:Document.__setstate__"]}
{"id": "C75", "title": "Calls that cannot work raise the exception that the code documents", "statement": "Navigation from, and spans over, a node in no layer raise AttributeError; a node of another layer gives AssertionError (left, right, iter_nodespan) or DataValidationError (layer[node]); positions outside the list IndexError; spans whose ends are in two layers, unnumbered or in the wrong order AssertionError; a positional argument of add that is no Node ValueError, after the earlier ones are added; sort raises what its key function raised first, with the layer as after compact.", "quantifier": "every heap, layer, node and pair of nodes", "why_tests_cant": "wrong calls on every reachable state: tests try a few", "anchors": ["py/docria/model.py:Node.left", "py/docria/model.py:Node.right", "py/docria/model.py:Node.iter_span", "py/docria/model.py:NodeSpan.__init__", "py/docria/model.py:NodeSpan.__iter__", "py/docria/model.py:NodeLayerCollection.left", "py/docria/model.py:NodeLayerCollection.right", "py/docria/model.py:NodeLayerCollection.iter_nodespan", "py/docria/model.py:NodeLayerCollection.__getitem__", "py/docria/model.py:NodeLayerCollection.add", "py/docria/model.py:NodeLayerCollection.sort"]}
{"id": "C76", "title": "Decoding bytes of any origin is safe", "statement": "MsgpackCodec.decode of any bytes either raises, leaving everything as it was, or gives a sound document: layers without gaps, distinct and carrying their names, references to nodes of the layer that the type names, spans inside their texts, only declared fields. An encoded document with bytes missing at the end never decodes (ValueError below 4 bytes, else StopIteration or OutOfData); bytes after a document do not matter. What a failing decode raises: ValueError for a wrong start or a field declared twice, KeyError for unknown types, layers, offsets and missing options, IndexError for nodes that are not there, AssertionError for ends in the wrong order, TypeError for scalars in place of lists, NotImplementedError for special encodings.", "quantifier": "every byte string, every program state", "why_tests_cant": "damaged and hostile files: tests can try a few, the property is about all", "anchors": ["py/docria/codec.py:MsgpackCodec.decode", "py/docria/codec.py:MsgpackCodec.decode_schema", "py/docria/codec.py:MsgpackCodec.decode_layer", "py/docria/codec.py:MsgpackCodec.decode_texts", "py/docria/codec.py:MsgpackCodec.compute_text_offsets", "py/docria/codec.py:Codec.commit_layers"]}
{"id": "C77", "title": "Values that are not of the type of their field are converted when written", "statement": "A value that a field of type int32, int64, float64, bool, string or binary holds without being of that type (node[field] = value is not checked, and encoding with type_validation=False writes it) is written as Python's int, float, bool, str or bytes converts it: floats lose their fraction, text and bytes that spell an integer (blanks around, single underscores between digits) become it, integers become the nearest float (the even one of two), anything with elements is true - also the string 'False' -, integers become decimal text, bytes become b'...' literals, text spans become their text, an integer in a binary field becomes that many zero bytes. Otherwise encode raises ValueError, OverflowError or TypeError. The document decodes with the converted values in place of the old ones and is otherwise the same; encoding leaves the original as it looked.", "quantifier": "every document, every value of such a field, every option of encode", "why_tests_cant": "which values convert, how ties round and what is refused is a matter of all integers, floats and strings", "anchors": ["py/docria/codec.py:Codec.encode", "py/docria/codec.py:MsgpackCodec.encode"]}
{"id": "C78", "title": "Every MessagePack spelling of a document is read alike", "statement": "The reader accepts exactly the MessagePack format: integers in any width, 32-bit and 64-bit floats, string, binary, array and map lengths in any of their forms, repeated map keys (the last wins); bytes spell at most one value, and what the writer packs spells the value it was given. Whatever the encoder writes, any other file with the same values in any spelling, with anything at all in place of the section sizes and anything after it, decodes to the same document.", "quantifier": "every byte string, every value, every encodable document and every file with its contents", "why_tests_cant": "the choices multiply with every value in the file: each integer, length and float has several spellings", "anchors": ["py/docria/codec.py:MsgpackCodec.decode", "py/docria/codec.py:MsgpackDocument.document", "py/docria/codec.py:MsgpackCodec.encode"]}
{"id": "C79", "title": "Fields as attributes, get_prop, chain and dangling nodes", "statement": "For every field name that is not of the form __x__: node.fld.f is the value of the field or None when the node has none, node.fld.f = v is node[f] = v (it is read back, and no other field of any node changes), del node.fld.f is del node[f] and raises KeyError when the field is absent. get_prop(f, d)(node) is the field, also when it is None, and d only when it is absent. chain(f1, ..., fn)(x) applies the functions in order, and chaining chains is chaining all their functions. is_dangling is true exactly for the nodes that no layer holds; a node that a layer holds has a number, and a node that was removed is dangling and keeps the number it had.", "quantifier": "every state, node, field name, value, default and list of functions", "why_tests_cant": "names and histories are unbounded", "anchors": ["py/docria/model.py:Node.fld", "py/docria/model.py:_DictAsMembers.__getattr__", "py/docria/model.py:_DictAsMembers.__setattr__", "py/docria/model.py:_DictAsMembers.__delattr__", "py/docria/model.py:Node.is_dangling", "py/docria/algorithm.py:get_prop", "py/docria/algorithm.py:chain", "py/docria/model.py:Node.i"]}
{"id": "C80", "title": "Typed data and embedded documents", "statement": "ExtData.encode gives the bytes it holds or what Python's bytes() makes of the value it holds. An embedded document (MsgpackDocumentExt) encodes to the bytes of the document; these, held as bytes, are given back unchanged by encode, and decode makes the same document of them, whose bytes are again the same; decode decodes once: later calls return that document and change nothing; a decode that raises changes nothing.", "quantifier": "every state, every value, every encodable document", "why_tests_cant": "contents of documents are unbounded", "anchors": ["py/docria/model.py:ExtData.encode", "py/docria/codec.py:MsgpackDocumentExt.encode", "py/docria/codec.py:MsgpackDocumentExt.decode"]}
{"id": "C81", "title": "Representations tell what they represent", "statement": "repr() of None, a bool, an int, a string or bytes is a Python literal for it, and different values have different representations. repr() of a search predicate built from comparisons with such values, And, Or and Not writes out the predicate, and two predicates with the same representation are the same, up to >= shown as >. Two data types with the same representation have the same type name and options, in order. Two text spans with the same representation have the same text name, offsets and covered text. Two layers with the same representation have the same name and number of nodes.", "quantifier": "every value, predicate over field names without }, data type with such options, span of a text whose name has no [, layer", "why_tests_cant": "nesting of predicates and lengths of strings are unbounded", "anchors": ["py/docria/query.py:NodeFieldPredicateEq.__repr__", "py/docria/query.py:NodeFieldPredicateGe.__repr__", "py/docria/query.py:NodePredicateOr.__repr__", "py/docria/query.py:NodePredicateInvert.__repr__", "py/docria/model.py:DataType.__repr__", "py/docria/model.py:TextSpan.__repr__", "py/docria/model.py:NodeLayerCollection.__repr__"]}
{"id": "C82", "title": "Document files of any origin", "statement": "Any bytes after the header of a document file are read as blocks in exactly one way, and the blocks as documents in exactly one way: value by value, up to the end of the data (also within a value), the first None or the first thing that cannot be read. A MsgpackDocumentReader opens exactly the files that begin with Dmf1, the name of a registered codec, a value and a false value; a name that is not a string is refused with TypeError (lists, maps) or NotImplementedError. Of an opened file, next() gives these documents with their references, one after the other, and then StopIteration or the exception of what could not be read; iteration, DocumentReader, blocks() and block.documents() agree with it (a DocumentReader takes a document whose data end too early, a StopIteration while decoding, for the end of the file); and get() with the reference of one of these documents gives that document, whatever calls of next, get, seek and readblock, with whatever arguments, were made before.", "quantifier": "every file contents, every registry of codecs, every sequence of calls", "why_tests_cant": "files and sequences of calls are unbounded", "anchors": ["py/docria/collection.py:MsgpackDocumentReader.__init__", "py/docria/collection.py:MsgpackDocumentReader.__next__", "py/docria/collection.py:MsgpackDocumentReader.get", "py/docria/collection.py:MsgpackDocumentReader.readblock", "py/docria/collection.py:MsgpackDocumentReader.blocks", "py/docria/collection.py:MsgpackDocumentBlock.documents", "py/docria/collection.py:MsgpackDocumentBlock.__next__", "py/docria/collection.py:DocumentReader.__next__"]}
{"id": "C83", "title": "Equality, hashing, and parts of spans by pair", "statement": "span[(a, b)] with 0 <= a <= b <= len(span) is the part of the span from a to b (elsewhere in the text it leaves the span; reversed pairs raise DataValidationError). Two spans are equal exactly if start and stop are, and equal spans hash equally. Offsets are equal exactly if their numbers are, and then hash equally. Two data types are equal exactly if they have the same name and the same options, and are then hashed over the same items, in whatever order the options were given. Lists of nodes are equal exactly if they hold the same nodes in the same order. An option that is neither a string nor a span names no layer or text; the type constructors set exactly the documented option.", "quantifier": "all texts, spans, pairs, types with any options, lists of nodes", "why_tests_cant": "texts, options and lists are unbounded", "anchors": ["py/docria/model.py:TextSpan.__getitem__", "py/docria/model.py:TextSpan.__eq__", "py/docria/model.py:TextSpan.__hash__", "py/docria/model.py:Offset.__eq__", "py/docria/model.py:DataType.__eq__", "py/docria/model.py:DataType.__hash__", "py/docria/model.py:DataTypes.ext"]}
{"id": "C84", "title": "Indexes of document files of any origin", "statement": "DocumentFileIndex.build over a file of any origin ends exactly as its documents decide, one after the other: with the exception of the first document whose properties cannot be read, with TypeError at the first whose properties cannot be indexed (a list or dict as the value of an indexed property; properties that are a list or string holding an indexed name; properties that are neither dict, list nor string, if there are names), with the exception that ends the reading of the file, or else with an index. A search in this index then yields exactly the documents whose properties satisfy all conditions, in file order: lazily with their data and references, or decoded one after the other until one cannot be decoded (IOError). A file that can no longer be opened raises when there is something to read. An index over several files yields the results of the files one after the other up to the first exception.", "quantifier": "any bytes, codecs, property names, conditions", "why_tests_cant": "files, documents and conditions are unbounded", "anchors": ["py/docria/collection.py:DocumentFileIndex.build", "py/docria/collection.py:DocumentFileIndex.search", "py/docria/collection.py:DocumentIndex.search", "py/docria/collection.py:MsgpackDocumentReader.blocks"]}
{"id": "C85", "title": "XML trees of documents with values of other types", "statement": "If XmlCodec.encode_tree succeeds on a document whose fields of plain types hold any values (node[field] = value is not checked, and type validation may be off), the tree is exactly that of the same document with the converted values: numbers, booleans, floats and integer texts convert as for the MessagePack codec (C77), in string fields there are only strings and in binary fields no values at all. A value that does not convert is refused with the exception of the conversion (TypeError for a string field, ValueError for a binary one).", "quantifier": "every document, value and option", "why_tests_cant": "all values and documents", "anchors": ["py/docria/codec.py:XmlCodec.encode_tree", "py/docria/codec.py:XmlCodec.encode_intermediate", "py/docria/model.py:Node"]}
{"id": "C86", "title": "Any value in a field that refers to nodes or text", "statement": "Both codecs accept in a node list field everything that can be iterated over and write the numbers of the nodes it gives (nil or an empty array if nothing); the first element that is no node raises AttributeError, a node that never was in a layer AssertionError (MessagePack) or is written as -1 (XML), a number, boolean or ExtData TypeError. A single reference must be a node, a text span one whose ends are offsets of the text (KeyError, AttributeError otherwise); a node span field takes node spans, in MessagePack also a node that has a left neighbour (as the span between its neighbours), in XML also a string or an empty list. NodeSpan.text and textspan raise KeyError if an end lacks the field and AttributeError if it has no text span there.", "quantifier": "every value, heap and list of offsets", "why_tests_cant": "all values", "anchors": ["py/docria/codec.py:Codec", "py/docria/codec.py:XmlCodec", "py/docria/model.py:NodeSpan.text", "py/docria/model.py:NodeSpan.textspan"]}
{"id": "C87", "title": "The Java port writes files with markers like the Python code", "statement": "BoundaryWriter of the Java port, used with write(byte[]) and split, produces the same bytes as _BoundaryWriter of the Python code for the same calls, markers included. With write(int) as well, the file has as much data as was written and each byte is found in its place, except a byte written alone whose place is directly before a marker: the marker is then one byte early and the byte found is 0 or at least 128.", "quantifier": "every exponent and every program of calls", "why_tests_cant": "files of all lengths; the damage needs one particular position in 4096 or more", "anchors": ["java/core/src/main/java/se/lth/cs/docria/io/BoundaryWriter.java:BoundaryWriter.write", "java/core/src/main/java/se/lth/cs/docria/io/BoundaryWriter.java:BoundaryWriter.split", "java/core/src/main/java/se/lth/cs/docria/io/BoundaryWriter.java:BoundaryWriter.writeBoundary", "py/docria/collection.py:_BoundaryWriter.write"]}
{"id": "C88", "title": "The Java port reads files with markers", "statement": "BoundaryReader.read() and read(byte[], int, int) of the Java port answer like a cursor in the data of any file with markers, whatever sizes the stream below hands out (the Python reader does not, see C37). Only a read past the end of a file that ends just before a marker never returns, if the stream answers 0 to a call for zero bytes. computeLength(start, stop) is the amount of data between two places outside of markers. available answers how much data follows up to the next marker or the end, unless the reader is directly before a marker. (skip does not count what it skips and later reads return markers as data; available may promise too much directly before a marker; computeLength is wrong from 0 on.)", "quantifier": "every file, every sequence of calls, every behaviour of the stream", "why_tests_cant": "all files and all ways in which a stream may cut its answers", "anchors": ["java/core/src/main/java/se/lth/cs/docria/io/BoundaryReader.java:BoundaryReader.read", "java/core/src/main/java/se/lth/cs/docria/io/BoundaryReader.java:BoundaryReader.skipBoundaryValue", "java/core/src/main/java/se/lth/cs/docria/io/BoundaryReader.java:BoundaryReader.computeLength", "java/core/src/main/java/se/lth/cs/docria/io/BoundaryReader.java:BoundaryReader.skip", "java/core/src/main/java/se/lth/cs/docria/io/BoundaryReader.java:BoundaryReader.available"]}
{"id": "C89", "title": "The Java port writes document files like the Python code", "statement": "DocumentStreamWriter of the Java port and MsgpackDocumentWriter of the Python code, given the same encoded documents and flushes, the same codec and block size, produce the same bytes, so that all that C32 to C34 say of written files holds of the Java file. If no document is written the Java file is only a piece of the header, which neither reader accepts. DocumentStreamBoundaryWriter splits at the start of every block except the first: that split lies within the header, so markers within the first block lead there (the Python writer splits after the header).", "quantifier": "every codec, block size and sequence of writes and flushes, however much of the header the packer passes on at once", "why_tests_cant": "files of all lengths and all patterns of flushes", "anchors": ["java/core/src/main/java/se/lth/cs/docria/io/DocumentStreamWriter.java:DocumentStreamWriter.write", "java/core/src/main/java/se/lth/cs/docria/io/DocumentStreamWriter.java:DocumentStreamWriter.flushblock", "java/core/src/main/java/se/lth/cs/docria/io/DocumentStreamWriter.java:DocumentStreamWriter.flush", "java/core/src/main/java/se/lth/cs/docria/io/DocumentStreamBoundaryWriter.java:DocumentStreamBoundaryWriter.flushblock", "py/docria/collection.py:MsgpackDocumentWriter.write", "py/docria/collection.py:MsgpackDocumentWriter.flush"]}
{"id": "C90", "title": "The Java port reads document files", "statement": "DocumentStreamReader (and MsgpackDocumentStreamReader) of the Java port opens every file of the format whose codec is none, zip or zipsq and whose block size and lengths fit an int; nextRaw, skip(), skip(n) and count() then answer like a list of the documents of the file, and nextBlock and skipBlock like a list of its blocks, for any sequence of such calls. This includes the files of the Python writer. Other codecs and block sizes beyond int are refused. (Given a codec by the caller, the constructor rejects every file; after nextBlock has handed out a block, nextRaw, skip and count always fail.)", "quantifier": "every file of the format, every sequence of calls", "why_tests_cant": "all files and call sequences; empty blocks and blocks of any size", "anchors": ["java/core/src/main/java/se/lth/cs/docria/io/DocumentStreamReader.java:DocumentStreamReader.nextRaw", "java/core/src/main/java/se/lth/cs/docria/io/DocumentStreamReader.java:DocumentStreamReader.readNextBlock", "java/core/src/main/java/se/lth/cs/docria/io/DocumentStreamReader.java:DocumentStreamReader.skip", "java/core/src/main/java/se/lth/cs/docria/io/DocumentStreamReader.java:DocumentStreamReader.count", "java/core/src/main/java/se/lth/cs/docria/io/DocumentStreamReader.java:DocumentStreamReader.nextBlock", "java/core/src/main/java/se/lth/cs/docria/io/DocumentStreamReader.java:DocumentStreamReader.skipBlock", "java/core/src/main/java/se/lth/cs/docria/io/MsgpackDocumentStreamReader.java:MsgpackDocumentStreamReader.nextBlock"]}
{"id": "C91", "title": "Dominant segments in the Java port", "statement": "DominantRight.resolve of the Java port returns members of the list in order of position, without overlap. Its result is that of the Python dominant_right with segments left out, each of which lies wholly behind a longer segment that neither returns. Without such segments both return the same. Over nodes it needs the span on every node (Python leaves out nodes without it); node spans count ids, both ends included. (A segment that overlaps no other should be returned; it is lost if a longer segment before it lost to a third.)", "quantifier": "all lists of segments that do not stop before they start; all lists of nodes", "why_tests_cant": "all lists of segments with nested, overlapping, equal and empty ones", "anchors": ["java/core/src/main/java/se/lth/cs/docria/algorithms/DominantRight.java:DominantRight.resolve", "java/core/src/main/java/se/lth/cs/docria/algorithms/DominantRight.java:DominantRight.resolveNodespans", "py/docria/algorithm.py:dominant_right"]}
{"id": "C92", "title": "Groups by span in the Java port", "statement": "GroupBySpan of the Java port returns, for any sequence of group(name, nodes, spanfield) calls, exactly the groups of the Python group_by_span with the same groups, layers, fields and resolution, the sets being iterated over in some order: the groups in order of start, each with the nodes of every layer that share a position with it (INTERSECT) and lie inside (COVER). Under each name the last call counts, and names come in order. Empty groups are left out unless asked for. A builder made from a layer takes only a span field of it; it groups by intersection unless told otherwise. A value that is no span is refused, and so is a node with a span that is in no layer. (A builder made from a list of nodes ignores its spanfield argument and uses text.)", "quantifier": "every heap, every sequence of group calls, every iteration order of the sets; nodes in layers, told apart by layer and id", "why_tests_cant": "all configurations of groups and nodes and every order in which hash sets may be iterated", "anchors": ["java/core/src/main/java/se/lth/cs/docria/algorithms/GroupBySpan.java:GroupBySpan.Builder.solve", "java/core/src/main/java/se/lth/cs/docria/algorithms/GroupBySpan.java:GroupBySpan.Builder.sweep", "java/core/src/main/java/se/lth/cs/docria/algorithms/GroupBySpan.java:GroupBySpan.Builder.group", "java/core/src/main/java/se/lth/cs/docria/algorithms/GroupBySpan.java:GroupBySpan.builder", "py/docria/algorithm.py:group_by_span"]}
{"id": "C93", "title": "The layer of the Java port", "statement": "A layer of the Java port behaves as a plain list of nodes under any sequence of add, remove(Node), remove(Object), removeAll, compact and clear in which add and clear meet no gap: answers, order, count, slots, and nothing happens to other layers. Adding keeps a layer consistent exactly if it has no gap. (With a gap the new node overwrites slot size, live or not, and gets an id that names no slot, so that remove(node) fails; clear fails with NullPointerException, having cut off the nodes before the gap.)", "quantifier": "all sequences of calls from every consistent layer; every heap", "why_tests_cant": "all interleavings of adding, removing and compaction", "anchors": ["java/core/src/main/java/se/lth/cs/docria/Layer.java:Layer.add", "java/core/src/main/java/se/lth/cs/docria/Layer.java:Layer.remove", "java/core/src/main/java/se/lth/cs/docria/Layer.java:Layer.removeAll", "java/core/src/main/java/se/lth/cs/docria/Layer.java:Layer.compact", "java/core/src/main/java/se/lth/cs/docria/Layer.java:Layer.clear"]}
{"id": "C94", "title": "Reading, sorting and retaining in the Java layer", "statement": "On a consistent layer of the Java port iteration, size, contains, first, last, get(id) and nodespan are those of the plain list; get is null exactly for the ids of removed nodes and raises exactly outside of the slots. sort(comparator) sorts the list stably; ids stay as before, so that the layer is consistent afterwards exactly if it was in order. retainAll keeps the given nodes and drops the others. (It keeps those given an odd number of times except the node with id 0, everything if given nothing; a dropped node still says it is in the layer; after a refused call ids are negative.)", "quantifier": "every consistent layer, every comparator, every list of nodes of the layer", "why_tests_cant": "all layers with gaps, all multisets of nodes given to retainAll", "anchors": ["java/core/src/main/java/se/lth/cs/docria/Layer.java:Layer.nodespan", "java/core/src/main/java/se/lth/cs/docria/Layer.java:Layer.sort", "java/core/src/main/java/se/lth/cs/docria/Layer.java:Layer.retainAll", "java/core/src/main/java/se/lth/cs/docria/Layer.java:Layer.first", "java/core/src/main/java/se/lth/cs/docria/Layer.java:Layer.last", "java/core/src/main/java/se/lth/cs/docria/Layer.java:Layer.contains", "java/core/src/main/java/se/lth/cs/docria/Layer.java:Layer.get"]}
{"id": "C95", "title": "Texts and their offsets in the Java port", "statement": "Any sequence of making spans, giving them up and encoding a text of the Java port with the spans still held behaves as with pairs of positions: which spans are accepted (start before the end of the text), the parts (cut at exactly the ends of the spans, none empty, joining to the text; one empty part for the empty text), the two numbers of each span. Parts read back give the text, and a span its ends and its string. (A span left out of one encoding and used again later is forgotten by its text: it is written with numbers that name something else.)", "quantifier": "all texts, all sequences of calls; encoding and reading for texts of any past", "why_tests_cant": "all sequences of span creation and encoding with their shared, mutable offset objects", "anchors": ["java/core/src/main/java/se/lth/cs/docria/Text.java:Text.compile", "java/core/src/main/java/se/lth/cs/docria/Text.java:Text.span", "java/core/src/main/java/se/lth/cs/docria/Text.java:Text.reset", "java/core/src/main/java/se/lth/cs/docria/Text.java:Text.initializeOffsets", "java/core/src/main/java/se/lth/cs/docria/Document.java:Document.compile", "java/core/src/main/java/se/lth/cs/docria/MsgpackCodec.java:MsgpackCodec.decodeTexts"]}
{"id": "C96", "title": "Spans of the Java port", "statement": "A span of the Java port reads as the text between its ends: toString, length, charAt, subSequence from non-negative positions; covers is inclusion, compareTo the total order by start and stop; spans known to their text are equal exactly if their ends are; texts are equal exactly if their names and contents are, and equal spans of any texts have the same ends in equal texts. (subSequence with a negative start reads text before the span; spans that only touch intersect; a span and its copy read back are not equal.)", "quantifier": "every text, all spans and indices", "why_tests_cant": "all positions, spans sharing and not sharing offset objects", "anchors": ["java/core/src/main/java/se/lth/cs/docria/Span.java:Span.charAt", "java/core/src/main/java/se/lth/cs/docria/Span.java:Span.subSequence", "java/core/src/main/java/se/lth/cs/docria/Span.java:Span.intersects", "java/core/src/main/java/se/lth/cs/docria/Span.java:Span.covers", "java/core/src/main/java/se/lth/cs/docria/Span.java:Span.compareTo", "java/core/src/main/java/se/lth/cs/docria/Span.java:Span.equals", "java/core/src/main/java/se/lth/cs/docria/Text.java:Text.equals", "java/core/src/main/java/se/lth/cs/docria/Offset.java:Offset.equals"]}
{"id": "C97", "title": "Texts in UTF-16 and in code points", "statement": "For the same string and the same positions (moved from code points to UTF-16 units) the two ports compute the same parts and the same numbers for spans and write the same bytes; the Java port reads parts written by the Python port as the same text with the same span strings. Whatever string the Java port writes it can read, and reads back the same exactly if its surrogates are paired. (A Java span may end inside a pair; the character is then lost in the file. The empty text has one part in one port and none in the other.)", "quantifier": "all strings of Unicode scalar values, all sequences of calls; all sequences of UTF-16 units", "why_tests_cant": "all texts with characters outside the basic plane at any position", "anchors": ["java/core/src/main/java/se/lth/cs/docria/Text.java:Text.compile", "java/core/src/main/java/se/lth/cs/docria/Text.java:Text.span", "java/core/src/main/java/se/lth/cs/docria/MsgpackCodec.java:MsgpackCodec.decodeTexts", "py/docria/model.py:Text.compile"]}
{"id": "C98", "title": "The Java port reads what the Python port writes", "statement": "Both ports use the same eleven names for the types of fields (Java also nil). Of the documents that the Python port encodes (to fewer than 2^31 bytes, with or without external text, whatever follows them) the Java port's MsgpackCodec.decode returns the same document, value for value and span for span in UTF-16 positions, exactly for those whose properties are booleans, integers of 64 bits, floats, strings or bytes, whose type options are such values with floats of 32 bits, whose layers have fewer than 2^31 nodes, whose integers fit the declared width and which have no bytes in a field. (The others are refused, or read as something else: an integer property of 2^63 becomes negative, a default of 0.1 is rounded to a float.)", "quantifier": "all histories of document operations, all documents and schemas, all following bytes", "why_tests_cant": "every combination of types, values and options, and the exact set of documents that pass from one language to the other", "anchors": ["java/core/src/main/java/se/lth/cs/docria/MsgpackCodec.java:MsgpackCodec.decode", "py/docria/codec.py:MsgpackCodec.encode"]}
{"id": "C99", "title": "What the Java port writes is read back", "statement": "The bytes that the Java port's MsgpackCodec.encode writes for a document whose values have the declared types, whatever follows them, are decoded by the Python port to the same document: the same properties, texts, types with arguments, nodes and values, spans at the same characters (code points in Python, UTF-16 units in Java); nothing that existed is changed. The Java port decodes them to the same document too, provided that no field holds bytes or an empty array of nodes (an integer property then has the smallest class that holds it, a float argument of a type is rounded to 32 bits). The converse provisos are needed: bytes in a field, and an empty array of nodes, are written but refused on reading; the target of a field of node spans is not checked by encode, a span among the properties makes the bytes unreadable, an undeclared field is not written, and a value of the wrong type is written.", "quantifier": "all documents of the Java port, all following bytes, all states of the Python side", "why_tests_cant": "every combination of types, values, arguments and spans, and which documents survive", "anchors": ["java/core/src/main/java/se/lth/cs/docria/MsgpackCodec.java:MsgpackCodec.encode", "java/core/src/main/java/se/lth/cs/docria/Document.java:Document.compile", "java/core/src/main/java/se/lth/cs/docria/Document.java:Document.validateSchema", "java/core/src/main/java/se/lth/cs/docria/MsgpackCodec.java:MsgpackCodec.decode", "py/docria/codec.py:MsgpackCodec.decode"]}
{"id": "C100", "title": "The byte buffer of the Java port gives back what was written", "statement": "For every sequence of writes (single bytes, arrays, ranges inside their arrays) of fewer than 2^31 bytes in total into a new ByteOutputBuffer of any positive buffer size, toByteArray returns exactly the written bytes in order and length their number.  A range outside its array raises after writing a prefix of it.  From 2^31 bytes on toByteArray raises and length is negative; with buffer size 0 a write never ends.  DeflateCodec returns the concatenation of what java.util.zip writes until it has finished, never returns when the input ends too early, and raises IOError when the format is wrong.", "quantifier": "all buffer sizes, sequences of writes, contents, ranges, and behaviours of the class driven", "why_tests_cant": "tests use one buffer size and a few lengths; the loop has to carry a position through any number of buffers", "anchors": ["java/core/src/main/java/se/lth/cs/docria/io/ByteOutputBuffer.java:ByteOutputBuffer.write", "java/core/src/main/java/se/lth/cs/docria/io/ByteOutputBuffer.java:ByteOutputBuffer.toByteArray", "java/core/src/main/java/se/lth/cs/docria/io/ByteOutputBuffer.java:ByteOutputBuffer.length", "java/core/src/main/java/se/lth/cs/docria/io/DeflateCodec.java:DeflateCodec.compress", "java/core/src/main/java/se/lth/cs/docria/io/DeflateCodec.java:DeflateCodec.decompress"]}
{"id": "C101", "title": "The parts of a written document are found without decoding it (Java)", "statement": "For every document written by the Python port (and readable in Java) or by the Java port, with at least one layer: MsgpackDocument accepts the bytes; propertyCompartment, schemaCompartment, textCompartment and layersCompartment are consecutive pieces of them, the same on every call; properties(), parsePropertyCompartment and parseSchemaCompartment give the properties and the schema, equal to those of document(); schema() is null before the first call and the schema after it.  layersCompartment is everything that remains just when there is one layer.  A document without layers makes the first call raise and the second succeed.  A MsgpackDocument made of four compartments never decodes.", "quantifier": "all written documents, all orders of calls, whatever follows the bytes or the array in memory", "why_tests_cant": "positions depend on the length of every part; a test with one layer does not notice that the others are left out", "anchors": ["java/core/src/main/java/se/lth/cs/docria/MsgpackDocument.java:MsgpackDocument.determineCompartments", "java/core/src/main/java/se/lth/cs/docria/MsgpackDocument.java:MsgpackDocument.properties", "java/core/src/main/java/se/lth/cs/docria/MsgpackDocument.java:MsgpackDocument.layersCompartment", "java/core/src/main/java/se/lth/cs/docria/MsgpackDocument.java:MsgpackDocument.parsePropertyCompartment", "java/core/src/main/java/se/lth/cs/docria/MsgpackDocument.java:MsgpackDocument.document"]}
{"id": "C102", "title": "Editing documents in the Java port", "statement": "Node.Builder.put accepts exactly the values whose type equals the declared type of the field, each field once; Document.remove(text, false) is refused if and only if a span field refers to the text, and remove(text, true) takes away exactly the fields that refer to it, with their values; what remove(layer, ...) does depends only on fields that refer to a text with the name of the layer; and any document made by adding texts, layers under new names, fields and built nodes, by removing fields, and by remove(...) in any order, also through calls that raise, is - if MsgpackCodec.encode writes it, it holds no bytes, and its node span fields name layers of the document - read back by MsgpackCodec.decode as the same document. Neither remove takes the text or layer itself away, a referenced layer is not protected, a second layer of one name makes references dangle, and Node.put checks nothing.", "quantifier": "for all documents, schemas, values, texts, names, and all sequences of calls", "why_tests_cant": "A test tries a few calls in one order; the reachable documents are unbounded in number, and the effect of remove on all layers, fields and nodes at once is a statement about every document.", "anchors": ["java/core/src/main/java/se/lth/cs/docria/Document.java:Document.remove", "java/core/src/main/java/se/lth/cs/docria/Document.java:Document.add", "java/core/src/main/java/se/lth/cs/docria/Node.java:Node.Builder.put", "java/core/src/main/java/se/lth/cs/docria/Node.java:Node.put", "java/core/src/main/java/se/lth/cs/docria/Layer.java:Layer.addField", "java/core/src/main/java/se/lth/cs/docria/Layer.java:Layer.removeField", "java/core/src/main/java/se/lth/cs/docria/DataType.java:DataType.equals", "java/core/src/main/java/se/lth/cs/docria/Schema.java:Schema.LayerBuilder.addField"]}
{"id": "C103", "title": "Whatever the Java port decodes is a document that holds together", "statement": "If MsgpackCodec.decode of the Java port returns a document for some bytes, wherever they come from, then in that document: names of properties, texts, layers and fields are unique; every declared type is a known one and has the argument it needs; every value of every node fits the type of its field; every reference goes to a node that exists; both ends of every span lie on ends of characters of the text it names; no array of nodes is empty and no node span runs backwards. If moreover every type names a text or layer that exists, spans run forward, and there are no bytes among the values and no long among properties and arguments that an int could hold, then writing the document and reading it again gives the same document, and Python reads it as the same document. None of these last conditions is ensured by the decoder.", "quantifier": "all byte sequences, all documents that decode returns for them, all continuations of the written bytes, all heaps of the Python reader", "why_tests_cant": "A test decodes files that an encoder has written; the bytes here are arbitrary, and a wrong check of an index or of an argument shows only on files that no encoder writes.", "anchors": ["java/core/src/main/java/se/lth/cs/docria/MsgpackCodec.java:MsgpackCodec.decode", "java/core/src/main/java/se/lth/cs/docria/MsgpackCodec.java:MsgpackCodec.decodeLayer", "java/core/src/main/java/se/lth/cs/docria/MsgpackCodec.java:MsgpackCodec.resolveReferences", "java/core/src/main/java/se/lth/cs/docria/MsgpackCodec.java:MsgpackCodec.decodeTexts", "java/core/src/main/java/se/lth/cs/docria/MsgpackCodec.java:MsgpackCodec.decodeSchema", "java/core/src/main/java/se/lth/cs/docria/MsgpackCodec.java:MsgpackCodec.encode"]}
{"id": "C104", "title": "Documents and document files that end too early, in the Java port", "statement": "If MsgpackCodec.decode makes a document of some bytes, then a front of these bytes decides it: followed by any other bytes the front decodes to the same document, and every proper prefix of the front makes decode raise for want of bytes, so a shortened document is never taken for a smaller one; for the bytes that MsgpackCodec.encode has written for a document that can be read again, the front is all of them. A document file that ends inside its header is not opened by DocumentStreamReader. One that ends later gives, by nextRaw, exactly the documents of the blocks that are wholly there, in order; after that every call returns null if the file ends with a block, and otherwise raises for want of bytes.", "quantifier": "for all byte sequences, all documents of the Java port that can be read again, all document files with any blocks and codec that the reader knows, and every place to cut them", "why_tests_cant": "the places to cut, and what the lengths and tags at that place look like, are unbounded in number; tests take a few", "anchors": ["java/core/src/main/java/se/lth/cs/docria/MsgpackCodec.java:MsgpackCodec.decode", "java/core/src/main/java/se/lth/cs/docria/MsgpackCodec.java:MsgpackCodec.encode", "java/core/src/main/java/se/lth/cs/docria/io/DocumentStreamReader.java:DocumentStreamReader.nextRaw"]}
{"id": "C105", "title": "Documents in Hadoop jobs", "statement": "What DocumentWritable.write writes, readFields of any other DocumentWritable reads back exactly, leaving the bytes that follow; a sequence of writables written to one stream is read back in order by one writable; with bytes missing at the end readFields raises and the writable is unchanged; getDocument of what was read agrees with the document that was written. What is written is the document that getDocument shows: edits made to a document given to the writable are written. The file that a task of DocriaWriter leaves is read by the record reader of DocriaInputFormat: nextKeyValue gives the documents in order, then false on every later call. (Two parts are false of the code: once a writable has bytes, edits of the document that getDocument shows are never written; the file of a task that wrote no document cannot be opened.)", "quantifier": "for all writables with any documents or bytes, all sequences of calls and edits, all streams with anything after them, every place to cut, all block sizes and codecs that the reader knows", "why_tests_cant": "histories of a reused writable and the shapes of documents are unbounded; a test needs a cluster and sees a few documents", "anchors": ["java/hadoop/src/main/java/se/lth/cs/docria/hadoop/DocumentWritable.java:DocumentWritable.write", "java/hadoop/src/main/java/se/lth/cs/docria/hadoop/DocumentWritable.java:DocumentWritable.readFields", "java/hadoop/src/main/java/se/lth/cs/docria/hadoop/DocumentWritable.java:DocumentWritable.getDocument", "java/hadoop/src/main/java/se/lth/cs/docria/hadoop/DocriaWriter.java:DocriaWriter.write", "java/hadoop/src/main/java/se/lth/cs/docria/hadoop/DocriaInputFormat.java:nextKeyValue"]}
{"id": "C106", "title": "Values of the Java port as text, numbers, truth values, bytes and nodes", "statement": "intValue and longValue of a StringValue succeed exactly on numerals (optional sign, decimal digits) of numbers in range, with that number, and raise NumberFormatException otherwise; stringValue of an IntValue or LongValue is such a numeral for it. IntValue as long and double is exact and comes back; LongValue as int keeps the last 32 bits, as double it is the nearest double (ties to even), exact up to 2^53; DoubleValue as int and long drops what follows the point and stops at the ends of the range, NaN is 0. boolValue tells zero from other numbers, and is the truth value of BoolValue and of texts. stringValue of bytes is Base64 and determines them; that of an extension its type and bytes; that of a node its layer and id; that of a node array all its nodes; that of a span the covered text; that of a node span the text from the start of its first to the end of its last node. A field that a node does not have reads as empty, zero and false. (Two parts are false of the code: DoubleValue.boolValue is true for 0.0 and false for 1.0, and DoubleValue.stringValue is null.)", "quantifier": "for all ints, longs, doubles (all 2^64 bit patterns), texts, byte arrays, node references and documents", "why_tests_cant": "the ranges of long and double cannot be enumerated; ends of ranges, ties and digits other than ASCII are where errors hide", "anchors": ["java/core/src/main/java/se/lth/cs/docria/Value.java:Value.intValue", "java/core/src/main/java/se/lth/cs/docria/values/IntValue.java:IntValue.doubleValue", "java/core/src/main/java/se/lth/cs/docria/values/LongValue.java:LongValue.intValue", "java/core/src/main/java/se/lth/cs/docria/values/DoubleValue.java:DoubleValue.boolValue", "java/core/src/main/java/se/lth/cs/docria/values/BinaryValue.java:BinaryValue.stringValue", "java/core/src/main/java/se/lth/cs/docria/NodeSpan.java:NodeSpan.stringValue"]}
{"id": "C107", "title": "Making, comparing and hashing values of the Java port; documents as values", "statement": "Values.get makes of null, values, Integer, Long, Float, Double, String, byte[], Boolean, node arrays and lists of nodes exactly the value of that kind with that content, and refuses every other object with an exception (false for nodes of several layers: refused as an array, accepted as a list). equals is symmetric and transitive and holds exactly between values of one kind with one content (doubles by their bits, all NaN being one); equal values have equal hashCode, which is the polynomial that Java prescribes for texts, bytes, longs and doubles, and ints never collide (false for extensions, spans and node arrays: two with one content are not equal). A DocumentValue made of a document always has the bytes of that document with all edits made through documentValue(); one made of bytes keeps them unchanged until its document is asked for and from then on has the bytes of the edited document; one made of bytes that are no document keeps them and raises the same exception each time; bytes of one read by another give the same document; its stringValue is the main text.", "quantifier": "for all objects, values, doubles, documents, byte arrays and sequences of calls and edits", "why_tests_cant": "equality of doubles has 2^128 cases with exceptions at zero and NaN; loss of edits depends on the order of calls", "anchors": ["java/core/src/main/java/se/lth/cs/docria/values/Values.java:Values.get", "java/core/src/main/java/se/lth/cs/docria/values/DoubleValue.java:DoubleValue.equals", "java/core/src/main/java/se/lth/cs/docria/values/StringValue.java:StringValue.hashCode", "java/core/src/main/java/se/lth/cs/docria/values/DocumentValue.java:DocumentValue.binaryValue", "java/core/src/main/java/se/lth/cs/docria/values/DocumentValue.java:DocumentValue.documentValue"]}
{"id": "C108", "title": "What MsgpackCodec.debug prints", "statement": "Of the bytes of any document, whatever follows them, debug prints the whole encoded document in order: magic, properties, types, every field of every schema with its type and arguments, the texts, and for every layer its size, its number of nodes, and every column with its encoding marker; it does not raise. Two documents of which the same is printed have the same bytes. Of bytes that are cut short after the magic it prints a beginning of what it prints of all of them, and then raises for want of bytes. Of any bytes, sizes and numbers of nodes are printed only if they are numbers. It should refuse bytes that are no document (false: the magic is printed, not checked).", "quantifier": "for all heaps, documents, options, trailing bytes, and for all bytes and places to cut", "why_tests_cant": "the number of layers, fields and bytes is unbounded, and every place to cut counts", "anchors": ["py/docria/codec.py:MsgpackCodec.debug"]}
{"id": "C109", "title": "Layers as data frames", "statement": "NodeLayerCollection.to_pandas gives DataFrame exactly the requested columns (all declared fields if none are named), in the order of the fields, and __ref last; __ref has the nodes that were not removed, in order; every other column has one cell per node, in order: None if the field is absent, the covered text of a span if asked for, and the value otherwise. It works exactly if every requested field is declared, and raises KeyError otherwise. A field called __ref should keep its values (false: replaced by the nodes), and a span field that is None should be None among the texts (false: it is the word None).", "quantifier": "for all heaps, layers, lists of fields and options", "why_tests_cant": "layers, values and requested fields are unbounded", "anchors": ["py/docria/model.py:NodeLayerCollection.to_pandas"]}
{"id": "C110", "title": "From Python through Java and back", "statement": "A document that the Python port writes and that is readable in the Java port comes back when the Java port writes it and the Python port reads that, whatever order the maps of the Java port are iterated in (TreeMap, HashMap), whatever follows the bytes, and whatever exists already: the same properties, the same texts, layers of the same names with the same fields, types and arguments, as many nodes, and for every node and field the same value, references leading to the node at the same position; only the order of properties, texts, layers, fields and arguments may differ. The Java port does write it, unless a text is empty: with its maps in the order of the file the very bytes that Python wrote, in any other order as many bytes. Whether the Java port writes a document that holds what it declares, and how long the bytes are, never depends on the order of its maps.", "quantifier": "for all heaps, documents, options, trailing bytes, orders of the maps and heaps to read into", "why_tests_cant": "documents are unbounded, and every order of every map counts", "anchors": ["py/docria/codec.py:MsgpackCodec.encode", "py/docria/codec.py:MsgpackCodec.decode", "java/core/src/main/java/se/lth/cs/docria/MsgpackCodec.java:MsgpackCodec.decode", "java/core/src/main/java/se/lth/cs/docria/MsgpackCodec.java:MsgpackCodec.encode"]}
{"id": "C111", "title": "Declaring layers; a document as a mapping", "statement": "Declaring fields adds exactly the fields given before the first one that is refused, in order, and never changes a declaration that exists; set and add agree except for the exception raised when a field exists and its type is refused. A layer with a schema object of its own always knows the default values that its fields declare, whatever fields are added and removed; a layer that shares its schema object sees the fields that another layer adds. add_layer, document[name], name in document, del document[name] and maintext behave as a mapping: what was put under a name is found there, other names are not affected, a failing call changes nothing, and deleting refuses when another layer refers to the name; repr(document) tells the numbers of layers and texts.", "quantifier": "for all field declarations, programs of declaring calls, heaps and documents", "why_tests_cant": "sequences of calls are unbounded; sharing of schema objects is invisible until a default is missing", "anchors": ["py/docria/model.py:NodeLayerSchema.set", "py/docria/model.py:NodeLayerSchema.add", "py/docria/model.py:Document.add_layer", "py/docria/model.py:NodeLayerCollection.add_field", "py/docria/model.py:NodeLayerCollection.remove_field", "py/docria/model.py:Document.__getitem__", "py/docria/model.py:Document.__delitem__", "py/docria/model.py:Document.__contains__", "py/docria/model.py:Document.maintext", "py/docria/model.py:Document.__repr__"]}
{"id": "C112", "title": "Which documents the Java port writes", "statement": "encode of the Java port writes every document that is what it declares and whose names and strings hold characters, as long as an explicit sum over its contents (five bytes and four per character for a string, nine for a number, nine per UTF-16 unit of a text, and so on) is below 2 GiB, and the bytes are never more than that sum. It refuses a document whose schema names a text or layer that is not there, or names none where one is needed; the first such field in the order of the maps decides which error is raised. When the schema is fine, a value in a field of spans that is no span is refused wherever it is. A document that is what it declares is otherwise refused for its size only, and only if that sum reaches 2 GiB; a single property of 2 GiB is always refused.", "quantifier": "for all documents of the Java port, with any number of properties, texts, layers, fields and nodes", "why_tests_cant": "that no document of moderate size is refused, and that the size is bounded, says something of all documents at once", "anchors": ["java/core/src/main/java/se/lth/cs/docria/MsgpackCodec.java:MsgpackCodec.encode", "java/core/src/main/java/se/lth/cs/docria/Document.java:Document.validateSchema", "java/core/src/main/java/se/lth/cs/docria/Document.java:Document.compile"]}
{"id": "C113", "title": "From Java through Python and back", "statement": "Of every document that the Java port writes, without extension values, the Python port makes a valid document of its own; and if the document can be read again in Java, its type arguments hold no doubles but floats and no text is empty, then Python writes, with any options, the very bytes that Java wrote. A list of no nodes comes back as no value, and an empty text is written in one byte less.", "quantifier": "for all documents of the Java port and all contents of the heap", "why_tests_cant": "that two independent writers agree byte for byte on all documents cannot be sampled", "anchors": ["py/docria/codec.py:MsgpackCodec.decode", "py/docria/codec.py:MsgpackCodec.encode", "java/core/src/main/java/se/lth/cs/docria/MsgpackCodec.java:MsgpackCodec.encode", "java/core/src/main/java/se/lth/cs/docria/MsgpackCodec.java:MsgpackCodec.decode"]}
{"id": "C114", "title": "Nodes with fields of their own", "statement": "A node of a class that keeps some fields itself (ConcreteNode) has, after any calls of put and setData that its setters accept, in every field the value it was last given; where an ordinary node has a value it has the same, and in fields that are not the class's own there is no difference; forEach visits every field once, with what get returns. Unlike in an ordinary node, a field of the class's own is always there, is not removed, is not lost when all fields are set, and get with a default does not find it; and it cannot hold a reference to nodes in a document that is decoded, as the setter refuses the number that is put first.", "quantifier": "for all classes, objects, values and sequences of calls", "why_tests_cant": "a test has a few classes and calls; the invariant that the two places where fields are kept never overlap is over all histories", "anchors": ["java/core/src/main/java/se/lth/cs/docria/ConcreteNode.java:ConcreteNode.get", "java/core/src/main/java/se/lth/cs/docria/ConcreteNode.java:ConcreteNode.put", "java/core/src/main/java/se/lth/cs/docria/ConcreteNode.java:ConcreteNode.setData", "java/core/src/main/java/se/lth/cs/docria/ConcreteNode.java:ConcreteNode.forEach", "java/core/src/main/java/se/lth/cs/docria/ConcreteNode.java:ConcreteNode.has", "java/core/src/main/java/se/lth/cs/docria/MsgpackCodec.java:MsgpackCodec.resolveReferences"]}
{"id": "C115", "title": "The with statement of the document writer", "statement": "However the body of a with statement over a MsgpackDocumentWriter ends, with an exception of a write or of its own, the file is then closed and is a complete document file of exactly the calls made before the one that raised; found under its path and read, it gives these documents. A path that is opened with mode xb is refused if there is a file, and other files stay as they are. A closed file is never changed by later calls; documents written after close make flush and close raise. A program that catches the exceptions of write and goes on leaves the file of exactly the documents that could be written. DocumentIO.write does not obey its mode argument, and what is appended with mode ab cannot be read.", "quantifier": "for all sequences of writes and flushes, documents, block sizes, codecs, files, exceptions at any point", "why_tests_cant": "a test raises at a few points of a few programs; that nothing written is lost or half written is a statement about all of them", "anchors": ["py/docria/collection.py:MsgpackDocumentWriter.__exit__", "py/docria/collection.py:MsgpackDocumentWriter.close", "py/docria/collection.py:MsgpackDocumentWriter.flush", "py/docria/collection.py:MsgpackDocumentWriter.write", "py/docria/collection.py:DocumentIO.write", "py/docria/collection.py:MsgpackDocumentIO.read"]}
{"id": "C116", "title": "What is refused, and with which exception", "statement": "Packing an object for MessagePack fails exactly if some part does not fit, with the exception of the first such part in the order of packing: OverflowError for an int outside of 64 bits, UnicodeError for a surrogate, ValueError for lengths of 2^32 and more. Encoding a document with a field whose layer or text is missing raises SchemaError, whatever the options, and changes nothing; one with a node that has an undeclared field raises SchemaValidationError with the default options and is encoded with extra_fields_ok or without type_validation. Setting the main text raises AssertionError exactly if there is one. BoundaryReader raises IndexError for an empty file and IOError for exponents outside of 12 to 30; seek raises ValueError exactly below -1 and does not move. Writing what is not a document raises ValueError and changes nothing. repr of a document gives the numbers of its layers and texts and lists the properties in order; a number of more than 4300 digits among them raises ValueError.", "quantifier": "for all objects, documents, options, files, offsets, writers", "why_tests_cant": "a test tries a few objects; which of several flaws of a nested object is reported, and that nothing else is refused, is about all of them", "anchors": ["py/docria/codec.py:MsgpackCodec.encode", "py/docria/model.py:Document.compile", "py/docria/model.py:Document.maintext", "py/docria/collection.py:_BoundaryReader.seek", "py/docria/collection.py:MsgpackDocumentWriter.write", "py/docria/model.py:Document.__repr__"]}
{"id": "C117", "title": "What a file says about its document", "statement": "The bytes that encode returns are the contents of the document, section by section: the four letters DM_1; the size and the properties; the names of the layers and, for each, the number of its fields with their names, types by their names in the format, and options; the size and the texts, each cut into non-empty parts exactly where spans begin and end; and for every layer its size, the number of its nodes and, for each field, what its nodes hold in order. A node is written as its position in its layer, an array as the positions of its nodes, a range of nodes as the position of the first and the distance to the last, a span as the numbers of the parts of its text that begin at its two ends, and what is not set as nil (twice for a span). Every size is the number of bytes of its section. These contents are determined by the document, and any bytes that spell them are read as that document. JsonCodec.encode_object returns the same contents as a dictionary under DM10 with the entries props, texts, num_nodes, types and schema, and any object with these contents, its dictionaries in another order or with more in them, is read as the document.", "quantifier": "for all documents and options of encode", "why_tests_cant": "a round trip cannot see a change that the encoder and the decoder share; a test with stored bytes sees it for the few documents that were stored", "anchors": ["py/docria/codec.py:MsgpackCodec.encode", "py/docria/codec.py:MsgpackCodec.decode", "py/docria/codec.py:Codec.encode", "py/docria/codec.py:JsonCodec.encode_object", "py/docria/codec.py:JsonCodec.decode_object", "py/docria/model.py:Document.compile", "py/docria/model.py:Text.compile"]}
{"id": "C118", "title": "What the Java decoder refuses", "statement": "MsgpackCodec.decode of the Java port throws, for the first of these that a file has: an UnsupportedOperationException for a document property or a type option that is nil, an array or a map; a NullPointerException for a type whose name does not exist and an UnsupportedOperationException for a type that needs options and has none; an IllegalArgumentException for a second field of the same name, for a second text of the same name, and for a negative number of nodes; an UnsupportedOperationException for a column in another form. A cell, in any column of any layer after what can be read, is refused with a MessageTypeException if it is neither nil nor begins with a kind of object that its type takes, with a MessageIntegerOverflowException if it is an integer outside of the range of its type, and a span also with a NullPointerException if its text does not exist, with an IndexOutOfBoundsException if the text has fewer parts, and with a MessageTypeException if only one of its two numbers is nil. A cell of a type that takes one object, and a span of two, is refused only for these, and otherwise is read as the value that it stands for; a column of cells of one object ends with the exception of the first cell that is refused. The entries of an array of references and of a node range are integers in the same way, so that these are cells of one object too; the end of a node range is added as an int. An end of the bytes before a cell is an end of input. Fewer than four bytes are an end of input and four bytes other than DM_1 an IOError. A file whose sections can be read is refused only for a reference that is no node, in the first layer that has one, and with its exception: a NullPointerException for a layer that does not exist or is not named, an IndexOutOfBoundsException for a position outside of the layer, an IllegalArgumentException for an array of no nodes, a DataInconsistencyException for a range from right to left. One field with such a reference is enough, and the file is read exactly if there is none.", "quantifier": "for all contents with one of these flaws, anything in order before it and anything at all after it", "why_tests_cant": "each flaw can be at any place among any contents; a test has a few files", "anchors": ["java/core/src/main/java/se/lth/cs/docria/MsgpackCodec.java:MsgpackCodec.decode", "java/core/src/main/java/se/lth/cs/docria/MsgpackCodec.java:MsgpackCodec.decodeProperties", "java/core/src/main/java/se/lth/cs/docria/MsgpackCodec.java:MsgpackCodec.decodeTexts", "java/core/src/main/java/se/lth/cs/docria/MsgpackCodec.java:MsgpackCodec.decodeLayer", "java/core/src/main/java/se/lth/cs/docria/MsgpackCodec.java:MsgpackCodec.resolveReferences"]}
