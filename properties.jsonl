{"id": "C01", "title": "XML attribute escaping is lossless and inert", "statement": "Whatever string is given as a user name, tag key, tag value, member role or header value, the text the XML and OSC writers put between the attribute's quotes contains no '<', '>', '\"' or \"'\", uses '&' only to start one of the five predefined entities, and resolving those entities gives back exactly the original string.", "quantifier": "every string (every finite sequence of Unicode scalar values)", "why_tests_cant": "The repository's tests check eight literal strings; a character combination (an ampersand before text that looks like an entity, a quote at the end) that breaks out of the attribute only shows up for inputs nobody listed.", "anchors": ["src/xml/mod.rs: write_xml_escaped", "src/osc/mod.rs: OSCWriter::write_obj"]}
{"id": "C02", "title": "Decimal integers survive printing and parsing", "statement": "Every object id (i64), version, changeset id and uid (u32), way-node reference and member reference printed by a writer is parsed back by the readers to the same number; and a text is accepted as such a number only if it is an optional sign followed by at least one decimal digit whose value is in the type's range, in which case the value is the mathematical one (no wrap-around, no truncation).", "quantifier": "every i64 / u32 / u64 value and every text", "why_tests_cant": "2^64 values and unboundedly many texts; overflow boundaries are exactly where sampled tests stop.", "anchors": ["src/xml/mod.rs: XMLWriter::write_obj, node_xml_elements_to_osm_obj, get_nodes, get_members", "src/changesets.rs: next_changeset"]}
{"id": "C03", "title": "Coordinates survive their text form", "statement": "For every latitude or longitude value, the text shown by Display (and written into XML and OSC files) parses back, with from_str, to the same internal value.", "quantifier": "all 2^32 internal values of Lat and Lon", "why_tests_cant": "The path goes through a binary64 division, shortest-digits printing, decimal parsing, a binary64 multiplication and a rounding; a test samples a few of 2^32 values.", "anchors": ["src/lib.rs: lat_lon_impl! (Display, FromStr), lat_lon_inner_to_degrees"]}
{"id": "C04", "title": "Coordinates survive conversion to degrees and back", "statement": "For every latitude or longitude value, converting to f64 degrees and back with try_from gives Ok of the same internal value.", "quantifier": "all 2^32 internal values", "why_tests_cant": "Needs a rounding-error bound for every value, not a sample.", "anchors": ["src/lib.rs: lat_lon_impl! degrees, TryFrom<f64>"]}
{"id": "C05", "title": "Conversion from degrees is exact to half a unit and never wraps", "statement": "Converting a finite f64 number of degrees either fails (TooLarge / TooSmall, with the sign of the excess) or returns an internal value within half a unit plus binary64 rounding of degrees*1e7; it always succeeds for degrees between -180 and 180, and fails exactly when the rounded product leaves the i32 range. Infinite inputs fail. Text that is not a number fails.", "quantifier": "every binary64 value (and every text)", "why_tests_cant": "2^64 floating point inputs with boundary cases at the i32 limits.", "anchors": ["src/lib.rs: lat_lon_impl! TryFrom<f64>, FromStr, ParseLatLonError"]}
{"id": "C06", "title": "Not-a-number coordinates are rejected", "statement": "A NaN number of degrees (or the text \"nan\") is never turned into a valid coordinate.", "quantifier": "every NaN f64 and every text that parses to NaN", "why_tests_cant": "A universal claim over the special values; no test passes NaN.", "anchors": ["src/lib.rs: lat_lon_impl! TryFrom<f64>, FromStr"]}
{"id": "C07", "title": "A failed coordinate assignment changes nothing", "statement": "set_lat_lon either stores exactly the converted pair and returns Ok, or returns an error and leaves the node exactly as it was (never one coordinate updated and the other not).", "quantifier": "every node and every pair of f64 inputs", "why_tests_cant": "Atomicity over all error combinations.", "anchors": ["src/lib.rs: Node::set_lat_lon"]}
{"id": "C08", "title": "Epoch timestamps survive ISO formatting", "statement": "For every epoch number t with 0 <= t < 2^31, to_iso_string gives a text of the fixed form YYYY-MM-DDTHH:MM:SSZ, and reading that text back as a timestamp (to_epoch_number on the ISO form, or from_str) gives t.", "quantifier": "all 2^31 epoch seconds from 1970 to 2038", "why_tests_cant": "Leap-year rules at every month and century boundary; tests use three dates.", "anchors": ["src/utils.rs: epoch_to_iso, iso_to_epoch", "src/lib.rs: TimestampFormat"]}
{"id": "C09", "title": "ISO timestamps denote the right instant", "statement": "The calendar date and time of day printed for an epoch number is the one obtained by counting real calendar days (with Gregorian leap years) from 1970-01-01, and parsing an RFC 3339 text with any offset gives the number of seconds of that instant.", "quantifier": "every epoch second in the i32 range; every valid RFC 3339 text", "why_tests_cant": "A calendar algorithm can be right on all tested days and wrong on one.", "anchors": ["src/utils.rs: epoch_to_iso, iso_to_epoch"]}
{"id": "C10", "title": "Timestamps of any size are shown faithfully", "statement": "to_iso_string of an epoch number never shows a different instant, and to_epoch_number of a valid ISO text never gives a different instant.", "quantifier": "every i64 epoch number; every valid ISO text", "why_tests_cant": "The conversions go through i32 / u32 casts, which only misbehave outside the tested range.", "anchors": ["src/lib.rs: TimestampFormat::to_iso_string, to_epoch_number", "src/utils.rs"]}
{"id": "C11", "title": "Timestamp comparison is chronological", "statement": "For timestamps in the canonical ISO form or epoch numbers in range, in any mixture, partial_cmp orders them exactly as their instants are ordered, and == holds exactly when the instants are equal.", "quantifier": "every pair of canonical timestamps, in every combination of the two representations", "why_tests_cant": "ISO strings are compared as text; agreement of lexicographic and chronological order is a universal claim.", "anchors": ["src/lib.rs: impl PartialOrd / PartialEq for TimestampFormat"]}
{"id": "C12", "title": "Timestamp equality is an equivalence", "statement": "== on timestamps is reflexive, symmetric and transitive (the type claims Eq).", "quantifier": "every triple of timestamps, including non-canonical texts", "why_tests_cant": "Transitivity is a three-way universal property.", "anchors": ["src/lib.rs: impl PartialEq for TimestampFormat, derive(Eq)"]}
{"id": "C13", "title": "Tags behave as a map", "statement": "Starting from an object built without tags, after any sequence of set_tag and unset_tag calls on any of the object representations, tag(k) is the value of the last set_tag for k not followed by an unset_tag for k, has_tag/tagged/untagged/num_tags agree with it, and tags() lists every key once.", "quantifier": "every finite sequence of tag operations, every key and value, on all three object kinds and all three representations (String, Arc, Rc)", "why_tests_cant": "A history property over unbounded sequences of calls.", "anchors": ["src/obj_types/string_types.rs: set_tag, unset_tag, tag", "src/obj_types/arc_types.rs", "src/obj_types/rc_types.rs", "src/lib.rs: OSMObjBase"]}
{"id": "C14", "title": "Tag updates on arbitrary objects are local", "statement": "On any object, even one read from a file with repeated keys, set_tag(k,v) makes tag(k)=v and leaves tag(k') unchanged for every other key, and unset_tag(k) leaves tag(k') unchanged for every other key.", "quantifier": "every object (any tag list, duplicates included), key and value", "why_tests_cant": "Universal over arbitrary tag lists.", "anchors": ["src/obj_types/string_types.rs: set_tag, unset_tag, tag"]}
{"id": "C15", "title": "unset_tag removes the tag", "statement": "After unset_tag(k), has_tag(k) is false.", "quantifier": "every object, including objects with repeated keys, and every key", "why_tests_cant": "Only objects with a repeated key expose the failure.", "anchors": ["src/obj_types/string_types.rs: unset_tag", "src/obj_types/arc_types.rs: unset_tag"]}
{"id": "C16", "title": "Setters are independent", "statement": "Each setter (id, version, deleted, changeset, timestamp, uid, user, lat/lon, nodes, members) makes its getter return the new value and leaves every other observable field unchanged; strip_metadata clears exactly uid, user and changeset.", "quantifier": "every object of every kind and representation, every field value", "why_tests_cant": "A frame property: quantifies over all objects and all other fields.", "anchors": ["src/obj_types/string_types.rs", "src/obj_types/arc_types.rs", "src/obj_types/rc_types.rs", "src/lib.rs: strip_metadata"]}
{"id": "C17", "title": "Arc and Rc objects convert to String objects without loss", "statement": "Converting an ArcOSMObj or RcOSMObj with distinct tag keys into a StringOSMObj preserves the kind and every observable field, including tag order, node list and member list.", "quantifier": "every Arc/Rc object with distinct tag keys", "why_tests_cant": "Universal over all field combinations.", "anchors": ["src/obj_types/mod.rs: From impls"]}
{"id": "C18", "title": "Conversion preserves tag lookup on every object", "statement": "For every Arc or Rc object, tag(k) is the same before and after conversion to the String representation.", "quantifier": "every Arc/Rc object, including ones with repeated keys, and every key", "why_tests_cant": "Only repeated keys expose the difference.", "anchors": ["src/obj_types/mod.rs: From impls"]}
{"id": "C19", "title": "Closed ways and areas", "statement": "is_closed is true exactly when the way has at least one node reference and its first and last references are equal; is_area is true exactly when it is closed and its area tag is not 'no'.", "quantifier": "every way", "why_tests_cant": "Universal over node lists and tag lists.", "anchors": ["src/lib.rs: Way::is_closed, is_area"]}
{"id": "C20", "title": "JSON tag export is valid and complete", "statement": "tags_json_string is a JSON object text which, parsed by the JSON grammar, has exactly the object's tag keys as members (each once), each with the last value stored for that key.", "quantifier": "every tag list over every string, including quotes, backslashes and control characters", "why_tests_cant": "Escaping errors appear only for particular characters.", "anchors": ["src/lib.rs: OSMObjBase::tags_json_string"]}
{"id": "C21", "title": "Object type names round-trip", "statement": "Every object type's long name, short name and short character parses back to that type, Display equals the long name, and no other text than n/node, w/way, r/relation/rel is accepted.", "quantifier": "every object type and every text and character", "why_tests_cant": "The rejection half quantifies over all texts.", "anchors": ["src/lib.rs: OSMObjectType"]}
{"id": "C22", "title": "Kind-restricted iteration is filtering", "statement": "nodes(), ways() and relations() of any reader yield exactly the objects of that kind, in file order, that objects() would yield on the same source; every object is of exactly one kind.", "quantifier": "every reader state / object stream", "why_tests_cant": "Universal over streams.", "anchors": ["src/lib.rs: OSMReader::nodes, ways, relations", "src/lib.rs: OSMObj::into_node, is_node"]}
{"id": "C23", "title": "Writer lifecycle", "statement": "For every sequence of set_header, write_obj, close calls on an XML or OSC writer: is_open is true until the first successful close and false ever after; write_obj after close returns AlreadyClosed and writes nothing; set_header succeeds only before the first output and returns AlreadyStarted / AlreadyClosed otherwise without effect; the XML declaration and the root start tag are written exactly once, before everything else.", "quantifier": "every finite sequence of writer calls and every object", "why_tests_cant": "A protocol property over all call sequences.", "anchors": ["src/xml/mod.rs: XMLWriter", "src/osc/mod.rs: OSCWriter"]}
{"id": "C24", "title": "OSC output is a complete document", "statement": "However many times close is called, explicitly or by drop, once the OSC writer is closed its output is exactly one declaration, one osmChange/modify opening, the written objects in order, and one closing of each.", "quantifier": "every finite sequence of write_obj and close calls followed by drop", "why_tests_cant": "A protocol property over all call sequences.", "anchors": ["src/osc/mod.rs: OSCWriter::close, Drop"]}
{"id": "C25", "title": "XML output is a complete document", "statement": "However many times close is called, explicitly or by drop, once the XML writer is closed its output is exactly one declaration, one root start tag, the written objects in order and one root end tag, and is well-formed XML.", "quantifier": "every finite sequence of set_header, write_obj and close calls followed by drop", "why_tests_cant": "A protocol property over all call sequences.", "anchors": ["src/xml/mod.rs: XMLWriter::close, Drop"]}
{"id": "C26", "title": "Output on a failing sink is a prefix", "statement": "If the underlying writer fails after any number of bytes, write_obj / close report the I/O error and everything that reached the sink up to then is a prefix of what the same calls would have produced on a sink that never fails.", "quantifier": "every call sequence and every failure point (byte position) of the sink", "why_tests_cant": "Quantifies over all crash points.", "anchors": ["src/xml/mod.rs: XMLWriter", "src/osc/mod.rs: OSCWriter"]}
{"id": "C27", "title": "XML files round-trip", "statement": "Reading with XMLReader the file XMLWriter produced for a list of objects yields the same objects, in the same order, with all fields equal, and then end of input, however often the writer was closed. The objects have a version, nodes have a position, texts consist of characters XML can carry, and timestamps are ISO texts without markup or instants from 1970 to 2038.", "quantifier": "every list of objects with arbitrary ids, strings, tags, node lists, members, coordinates and timestamps", "why_tests_cant": "Unbounded inputs through an escaping, printing and parsing pipeline.", "anchors": ["src/xml/mod.rs: XMLWriter::write_obj, XMLReader::next"]}
{"id": "C28", "title": "OSC files round-trip", "statement": "Reading with OSCReader the file OSCWriter produced for a list of objects yields the same objects in the same order with all fields equal, and then end of input, however often the writer was closed. The objects have a version, nodes have a position, texts consist of characters XML can carry, and timestamps are ISO texts without markup or instants from 1970 to 2038.", "quantifier": "every list of such objects", "why_tests_cant": "Unbounded inputs through an escaping, printing and parsing pipeline.", "anchors": ["src/osc/mod.rs: OSCWriter::write_obj, OSCReader::next"]}
{"id": "C29", "title": "Every written object can be read back", "statement": "Any object that the XML writer accepts, also a node without position or an object with an arbitrary ISO timestamp text, is returned by the XML reader when the file is read back, and does not hide the objects after it.", "quantifier": "every list of objects accepted by write_obj", "why_tests_cant": "Only particular field combinations break it.", "anchors": ["src/xml/mod.rs: node_xml_elements_to_osm_obj (lat ?), XMLWriter::write_obj (timestamp)"]}
{"id": "C30", "title": "XML reading ignores what it does not know", "statement": "The object read from an XML element depends only on the element's known attributes and on the known child elements: adding, anywhere in the element, attributes with other names, other child elements, comments, text or white space, or reordering attributes with distinct names, does not change the object.", "quantifier": "every element event sequence and every such insertion or permutation", "why_tests_cant": "swap_remove based attribute extraction makes order-independence non-obvious; universally quantified.", "anchors": ["src/xml/mod.rs: get_xml_attribute, get_tags, get_nodes, get_members, xml_elements_to_osm_obj"]}
{"id": "C31", "title": "XML field decoding", "statement": "An element's id, version, changeset, uid, user, timestamp, visible, lat/lon attributes and its tag, nd and member children determine the object's fields as the OSM XML format says (visible=false means deleted, absent means not deleted, unparsable optional numbers are absent, children without the needed attributes are skipped, order of children is kept).", "quantifier": "every element event sequence", "why_tests_cant": "Universal over all inputs, including malformed ones.", "anchors": ["src/xml/mod.rs: node_xml_elements_to_osm_obj, way_xml_elements_to_osm_obj, relation_xml_elements_to_osm_obj"]}
{"id": "C32", "title": "Protobuf messages survive the wire", "statement": "For every message of the file format and of the OSM format, parsing the bytes the message serialises to gives back the message (all fields, all values, any lengths), and unknown extra fields are ignored.", "quantifier": "every BlobHeader, Blob, PrimitiveBlock and nested message", "why_tests_cant": "Varint and zig-zag coding over the full 64-bit range and unbounded lists.", "anchors": ["src/stringpbf/osmformat.rs: merge_from, write_to_with_cached_sizes", "src/stringpbf/fileformat.rs"]}
{"id": "C33", "title": "PBF framing yields exactly the data blobs", "statement": "Reading a file that is a sequence of blobs yields the blobs of type OSMData, each intact, in file order, skips all others, and then reports end of file.", "quantifier": "every finite sequence of blobs of any types and sizes", "why_tests_cant": "Unbounded sequences; mis-framing shows only for particular sizes.", "anchors": ["src/stringpbf/mod.rs: get_next_osmdata_blob", "src/arcpbf/mod.rs: get_next_osmdata_blob"]}
{"id": "C34", "title": "Truncated PBF files are noticed", "statement": "If a PBF file is cut at a position that is not the end of a blob, reading it does not end as if the file were complete.", "quantifier": "every file and every cut position", "why_tests_cant": "Quantifies over all crash points.", "anchors": ["src/stringpbf/mod.rs: get_next_osmdata_blob (read_u32().ok()?)"]}
{"id": "C35", "title": "Dense nodes decode to the running sums", "statement": "The i-th node decoded from a dense group has id, raw latitude, raw longitude, changeset, uid and user index equal to the sum of the first i+1 deltas of the respective column, its version and visibility from its own column entry, and its tags from the i-th zero-terminated run of the key/value column, in order.", "quantifier": "every dense group of any length whose columns have matching lengths", "why_tests_cant": "An induction over the loop with seven accumulators.", "anchors": ["src/stringpbf/mod.rs: decode_dense_nodes", "src/arcpbf/mod.rs: decode_dense_nodes"]}
{"id": "C36", "title": "Way and relation references decode to the running sums", "statement": "The node list of a decoded way and the member list of a decoded relation are the running sums of the deltas, in order, with member types and roles matched by position, and tags matched key by value by position.", "quantifier": "every way and relation message of any length", "why_tests_cant": "An induction over the loop.", "anchors": ["src/stringpbf/mod.rs: decode_ways, decode_relations", "src/arcpbf/mod.rs: decode_ways, decode_relations"]}
{"id": "C37", "title": "Coordinates follow granularity and offset", "statement": "A decoded node's latitude is, in units of 100 nanodegrees, (lat_offset + granularity * raw) / 100 as the format prescribes (and likewise the longitude).", "quantifier": "every block granularity and offset, every raw coordinate", "why_tests_cant": "Integer division hides the error at the default granularity.", "anchors": ["src/stringpbf/mod.rs: decode_dense_nodes (scale_factor, internal_lat_offset)"]}
{"id": "C38", "title": "Timestamps follow date granularity", "statement": "A decoded object's timestamp is, in seconds, (timestamp * date_granularity) / 1000 milliseconds as the format prescribes, for dense nodes, ways and relations.", "quantifier": "every date granularity and timestamp column", "why_tests_cant": "The error is invisible at the default granularity of 1000.", "anchors": ["src/stringpbf/mod.rs: decode_dense_nodes (last_timestamp), decode_ways, decode_relations"]}
{"id": "C39", "title": "Visibility default", "statement": "An object whose visible flag is absent is not deleted, as the format requires; one whose flag is present is deleted exactly when the flag is false.", "quantifier": "every dense group, way and relation", "why_tests_cant": "Universal over flag presence for all three kinds.", "anchors": ["src/stringpbf/mod.rs: decode_ways (visible.unwrap_or(false)), decode_relations, decode_dense_nodes"]}
{"id": "C40", "title": "PBF kind filters equal filtering", "statement": "On a file whose groups each hold one kind of object, PBFReader::nodes(), ways() and relations() yield exactly what filtering objects() by kind yields.", "quantifier": "every such file, in any initial buffer state", "why_tests_cant": "The filter is applied inside the decoder and changes which blobs are decoded.", "anchors": ["src/stringpbf/mod.rs: PBFReader::nodes, ways, relations, decode_primitive_group_to_objs"]}
{"id": "C41", "title": "Node position reader agrees with the full reader", "statement": "PBFNodePositionReader yields, for every file the full reader can read, the (id, position) pairs of exactly the nodes the full reader yields, in the same order.", "quantifier": "every file readable by PBFReader", "why_tests_cant": "Two separate decoders must agree on all inputs.", "anchors": ["src/stringpbf/node_id_pos.rs", "src/stringpbf/mod.rs: decode_dense_nodes"]}
{"id": "C42", "title": "String and Arc PBF readers agree", "statement": "For every block both PBF readers decode, the objects are the same after conversion to the String representation.", "quantifier": "every block that the String reader decodes and that carries valid strings, info and visibility", "why_tests_cant": "Two separate decoders must agree on all inputs.", "anchors": ["src/stringpbf/mod.rs: decode_block_to_objs", "src/arcpbf/mod.rs: decode_block_to_objs"]}
{"id": "C43", "title": "PBF files round-trip from bytes", "statement": "For every list of objects written to PBF bytes by a writer following the format (string table, delta coding, zlib blobs, any split into blocks), PBFReader yields exactly those objects in order and then end of file.", "quantifier": "every list of objects, every split into blocks, every blob compression that the decompressor inverts", "why_tests_cant": "End-to-end over unbounded inputs.", "anchors": ["src/stringpbf/mod.rs: PBFReader::next"]}
{"id": "C44", "title": "Uncompressed blobs are readable", "statement": "A blob stored raw (without compression), which the format allows, is decoded to the same objects as the same data stored with zlib.", "quantifier": "every blob", "why_tests_cant": "No test file uses raw blobs.", "anchors": ["src/stringpbf/mod.rs: blob_raw_data", "src/arcpbf/mod.rs: blob_raw_data"]}
{"id": "C45", "title": "Tagless dense groups are readable", "statement": "A dense group whose key/value column is empty, which the format allows when no node has tags, is decoded to nodes without tags.", "quantifier": "every dense group with an empty key/value column", "why_tests_cant": "Only this column shape triggers it.", "anchors": ["src/stringpbf/mod.rs: decode_dense_nodes (keys_vals loop)", "src/arcpbf/mod.rs: has_tags"]}
{"id": "C46", "title": "No silent misreading of bad indexes", "statement": "If a key, value, role or user index of a decoded object points outside the string table, or an object id / coordinate sum leaves its integer range, decoding stops (panics in an overflow-checked build) rather than producing an object with another string or coordinate.", "quantifier": "every block", "why_tests_cant": "Universal over malformed inputs.", "anchors": ["src/stringpbf/mod.rs: decode_dense_nodes, decode_ways, decode_relations"]}
{"id": "C47", "title": "Changeset reader yields every changeset", "statement": "For every changeset file that is a sequence of changeset elements (with or without tags, with arbitrary other elements between and inside), ChangesetReader yields exactly those changesets in order with all attributes and with tags as a map, and then end of input.", "quantifier": "every such event sequence", "why_tests_cant": "Unbounded sequences with mixed empty and non-empty elements.", "anchors": ["src/changesets.rs: ChangesetReader::next_changeset"]}
{"id": "C48", "title": "Changeset reading terminates", "statement": "On every input, truncated ones included, next_changeset returns.", "quantifier": "every event sequence, including one that ends inside a changeset", "why_tests_cant": "Non-termination cannot be observed by a test, only timed out on.", "anchors": ["src/changesets.rs: ChangesetReader::next_changeset (inner loop ignores Eof)"]}
{"id": "C49", "title": "Changeset tag reader agrees with the changeset reader", "statement": "On every well-formed changeset file, ChangesetTagReader yields, for exactly the changesets that are not empty elements, the id and the tag list of that changeset, in order.", "quantifier": "every such event sequence", "why_tests_cant": "Two readers must agree on all inputs.", "anchors": ["src/changesets.rs: ChangesetTagReader::next_tag"]}
{"id": "C50", "title": "Tags are attributed to their own changeset", "statement": "ChangesetTagReader never returns a changeset's tags under the id of another changeset.", "quantifier": "every event sequence, including a changeset without an id attribute", "why_tests_cant": "The reader keeps the id in a field across calls.", "anchors": ["src/changesets.rs: ChangesetTagReader::next_tag (curr_id)"]}
{"id": "C51", "title": "OPL strings survive encoding", "statement": "decode_string(encode_string(s)) = s.", "quantifier": "every string", "why_tests_cant": "Only particular characters break it.", "anchors": ["src/opl/mod.rs: encode_string, decode_string"]}
{"id": "C52", "title": "OPL lists survive encoding", "statement": "Tag maps, way-node lists and relation member lists are decoded from their OPL encoding unchanged, whatever order the tag map is iterated in.", "quantifier": "every tag map, node id list and member list", "why_tests_cant": "Unbounded inputs and every iteration order.", "anchors": ["src/opl/mod.rs: encode_tags, decode_tags, encode_way_nodes, decode_way_nodes, encode_members, decode_members"]}
{"id": "C53", "title": "OPL lines decode to their fields", "statement": "A line in the OPL format for a node, way or relation decodes to an object with exactly the fields on the line.", "quantifier": "every object and every line assembled from it", "why_tests_cant": "Unbounded inputs.", "anchors": ["src/opl/mod.rs: decode_line"]}
{"id": "C54", "title": "OPL decoding never panics", "statement": "decode_line returns a result for every input line.", "quantifier": "every text line", "why_tests_cant": "Universal over malformed lines.", "anchors": ["src/opl/mod.rs: decode_line, decode_tags, decode_members"]}
{"id": "C55", "title": "Node chains are lossless", "statement": "NodeChain::new(nodes).nodes() = nodes.", "quantifier": "every list of node ids", "why_tests_cant": "Only particular id differences and repetitions break it.", "anchors": ["src/nodechain.rs: encode_nodes_to_bytes, decode_bytes_to_nodes"]}
{"id": "C56", "title": "The node store is a map", "statement": "After any sequence of set calls, get(id) returns the position last set for id, and None for an id never set.", "quantifier": "every finite sequence of set calls, every id", "why_tests_cant": "A history property; the file grows by padding.", "anchors": ["src/nodestore.rs: NodeStoreWriter::set, NodeStoreReader::get"]}
{"id": "C57", "title": "Equality of objects reflects what can be observed", "statement": "If every getter of two objects of the same family (String, Arc, Rc) returns the same, then == says they are equal; and == says so only if all getters agree, timestamps being compared with their own ==. False of the code for Arc/Rc nodes: a node whose only tag was set and then removed is not equal to the same node before, although every getter agrees.", "quantifier": "all pairs of objects, all histories of mutating calls", "why_tests_cant": "the internal representation admits several encodings of the same observable object, and a test compares only the ones it happens to build", "anchors": ["src/obj_types/arc_types.rs: ArcNode derive(PartialEq), set_tag, unset_tag", "src/obj_types/string_types.rs: StringNode derive(PartialEq)"]}
{"id": "C58", "title": "Headers are refused once output has begun", "statement": "Once any byte has reached the sink of an XML writer, set_header is refused and changes nothing, also when the first write failed half-way.", "quantifier": "every call sequence and every failure point of the sink", "why_tests_cant": "Quantifies over call sequences and crash points.", "anchors": ["src/xml/mod.rs: XMLWriter::ensure_header, set_header"]}
{"id": "C59", "title": "End of input means end of file", "statement": "The XML and OSC readers report the end of the input only when the whole file has been read: an element that lacks something (an id, a node's position) does not hide the objects after it.", "quantifier": "every event sequence", "why_tests_cant": "Only particular inputs break it, and the loss is silent.", "anchors": ["src/xml/mod.rs: XMLReader::next, node_xml_elements_to_osm_obj", "src/osc/mod.rs: OSCReader::next"]}
{"id": "C60", "title": "Truncated XML is noticed", "statement": "Reading any proper prefix of a file written by the XML or OSC writer yields exactly the objects whose text is complete in the prefix, in order, and then fails; it never reports a regular end of input.", "quantifier": "every document and every cut position (in bytes)", "why_tests_cant": "Quantifies over all crash points of all documents.", "anchors": ["src/xml/mod.rs: XMLReader::next", "src/osc/mod.rs: OSCReader::next"]}
{"id": "C61", "title": "A kind iterator does not change later reading", "statement": "After nodes(), ways() or relations() has been called on a PBFReader (and its iterator used or dropped), objects() on the same reader still yields every remaining object of every kind.", "quantifier": "every reader state, every file and every kind", "why_tests_cant": "It relates two ways of driving one reader over every remaining input and buffer state.", "anchors": ["src/stringpbf/mod.rs: PBFReader::nodes, ways, relations, next", "src/lib.rs: OSMReader::objects"]}
{"id": "C62", "title": "Columns of different lengths are noticed", "statement": "A way or relation message whose parallel columns (keys and values; member types, ids and roles) differ in length is rejected rather than silently truncated.", "quantifier": "every way and relation message", "why_tests_cant": "It ranges over all lengths of all columns.", "anchors": ["src/stringpbf/mod.rs: decode_ways, decode_relations", "src/arcpbf/mod.rs: decode_ways, decode_relations"]}
{"id": "C63", "title": "JSON export agrees with tag lookup", "statement": "Every member of tags_json_string has, under its key, the value tag(key) returns, and every key tag() knows is a member. False of the code for objects that repeat a key (as read from a file): tag() returns the first value, the JSON text has the last.", "quantifier": "every object of every family, every key", "why_tests_cant": "holds for every tag list without repeated keys and fails for every one with two different values for a key; a test sees single lists", "anchors": ["src/lib.rs: OSMObjBase::tags_json_string, OSMObjBase::tag", "src/obj_types/string_types.rs: tag"]}
{"id": "C64", "title": "The changeset tag export is all or nothing", "statement": "osmio-changeset-tags-to-sqlite never modifies an existing database. If it succeeds, the table has exactly one row for every changeset the tag reader yields, in order, with its id and its tags as a JSON array of pairs; if the input is bad, a database call fails or the program dies at any point, the table is missing or empty.", "quantifier": "every input, every failure of a database call, every crash point", "why_tests_cant": "All failure and crash points over unbounded inputs.", "anchors": ["src/bin/osmio-changeset-tags-to-sqlite.rs: main"]}
{"id": "C65", "title": "The tag popularity report is right", "statement": "After a successful export the report gives the number of changesets and of distinct keys, and for the most used keys (at most 100, each used in at least one changeset per thousand), in descending order, the number and percentage of changesets tagged with the key; it never panics.", "quantifier": "every input, every iteration order of the map of counts", "why_tests_cant": "Unbounded inputs and every hash-map order; division by the number of changesets.", "anchors": ["src/bin/osmio-changeset-tags-to-sqlite.rs: main"]}
{"id": "C66", "title": "OPL files are read to the end", "statement": "Iterating an OPL file yields the object of every line, in file order.", "quantifier": "every sequence of lines", "why_tests_cant": "Unbounded files and arbitrary malformed lines in between.", "anchors": ["src/opl/mod.rs: OPLReader::next, decode_line"]}
{"id": "C67", "title": "PBF data survives conversion to XML", "statement": "Writing every object either PBF reader returns, from whatever bytes and however reading ends, with the XML writer (or the change-file writer) succeeds, and reading that file back returns the same sequence of objects with the same type, tags, node lists, members, positions and metadata (the timestamp as text), and then the end, exactly if every user name, tag and role can be carried by XML. The objects read back compare equal to the originals exactly if their timestamps lie between 0 and 2^32 - 1 seconds.", "quantifier": "every PBF source, both object readers, every decompressor, every runtime choice, every order of the bulk writer", "why_tests_cant": "Composes three subsystems over all files.", "anchors": ["src/stringpbf/mod.rs: PBFReader::next", "src/arcpbf/mod.rs: PBFReader::next", "src/xml/mod.rs: XMLWriter, XMLReader", "src/osc/mod.rs: OSCWriter, OSCReader", "src/lib.rs: to_iso_string, to_epoch_number"]}
{"id": "C68", "title": "Concatenated PBF files read as both files", "statement": "Reading the concatenation of two PBF files yields the objects of the first followed by those of the second; if reading the first fails, reading the concatenation fails after the same objects.", "quantifier": "every first file made of whole blobs, every second source, all three readers", "why_tests_cant": "All pairs of files.", "anchors": ["src/stringpbf/mod.rs: FileReader::get_next_osmdata_blob", "src/stringpbf/mod.rs: PBFReader::next", "src/arcpbf/mod.rs: PBFReader::next", "src/stringpbf/mod.rs: PBFNodePositionReader"]}
{"id": "C69", "title": "The end of the data is final", "statement": "Once a reader has reported the end of its data, every later call reports the end again.", "quantifier": "every reader, every source, every number of later calls", "why_tests_cant": "Unbounded numbers of calls after every input.", "anchors": ["src/stringpbf/mod.rs: PBFReader::next", "src/arcpbf/mod.rs: PBFReader::next", "src/xml/mod.rs: XMLReader::next", "src/osc/mod.rs: OSCReader::next", "src/changesets.rs: ChangesetReader, ChangesetTagReader"]}
{"id": "C70", "title": "XML reading ends, and panics only on malformed XML", "statement": "Iterating an XML or change file always comes to an end, whatever it contains. A call to next() panics exactly when the XML parser reports an error before the end of the next node, way or relation element; well-formed files never make the reader panic.", "quantifier": "every sequence of XML events and errors", "why_tests_cant": "All event sequences, including nonsense.", "anchors": ["src/xml/mod.rs: XMLReader::next, xml_elements_to_osm_obj", "src/osc/mod.rs: OSCReader::next"]}
{"id": "C71", "title": "Strings that are not text never pass silently", "statement": "Every string of a PBF block that is not valid UTF-8 makes the reader report a failure; tags, member roles and user names are never silently dropped or altered because of their bytes.", "quantifier": "every block, every byte string in its string table, both readers", "why_tests_cant": "All byte strings in all positions of all blocks.", "anchors": ["src/stringpbf/mod.rs: decode_block_to_objs, decode_primitive_group_to_objs", "src/arcpbf/mod.rs: decode_ways, decode_relations, decode_dense_nodes"]}
{"id": "C72", "title": "Change blocks are transparent to the change-file reader", "statement": "The change-file reader yields the objects of all create, modify and delete blocks in file order, and objects in delete blocks are reported as deleted.", "quantifier": "every sequence of blocks, every element in them", "why_tests_cant": "Unbounded files and nestings.", "anchors": ["src/osc/mod.rs: OSCReader::next", "src/xml/mod.rs: xml_elements_to_osm_obj"]}
{"id": "C73", "title": "Every user id is readable", "statement": "PBF data of a user with any id a 32-bit field can hold (0 up to 2^31-1) is read, for nodes as well as ways and relations.", "quantifier": "every user id, every group, both readers", "why_tests_cant": "The boundary is one value in 2^31 and arises from sums of deltas.", "anchors": ["src/stringpbf/mod.rs: decode_dense_nodes", "src/arcpbf/mod.rs: decode_dense_nodes"]}
{"id": "C74", "title": "The result does not depend on how a PBF file is encoded", "statement": "Blob headers, blobs and blocks may be encoded in any way the protobuf rules allow (order of fields, packed or single repeated values, columns and submessages in pieces, overlong varints, repeated singular fields, unknown fields, known fields with another wire type, groups): the readers return the same objects, and a missing required field is always an error. Whole files made of such blobs yield exactly the objects the blocks mean.", "quantifier": "every message, every encoding of it, every file, every runtime choice", "why_tests_cant": "The encodings of one message are unbounded in number.", "anchors": ["src/stringpbf/osmformat.rs: merge_from", "src/stringpbf/fileformat.rs: Blob, BlobHeader", "src/stringpbf/mod.rs: FileReader::get_next_osmdata_blob", "src/stringpbf/mod.rs: PBFReader::next", "src/arcpbf/mod.rs: PBFReader::next"]}
{"id": "C75", "title": "The result does not depend on how the source delivers its bytes", "statement": "A PBF reader may be given any source of bytes. However the source cuts its bytes into pieces, and whichever of its calls are interrupted, each of the three PBF readers returns the same objects and then ends or fails in the same way as on the whole bytes at once.", "quantifier": "every byte sequence, every division into non-empty pieces, every placement of interruptions, the three PBF readers", "why_tests_cant": "The deliveries of one file are unbounded in number.", "anchors": ["src/stringpbf/mod.rs: get_next_osmdata_blob, PBFReader::next", "src/stringpbf/node_id_pos.rs: PBFNodePositionReader::next", "src/arcpbf/mod.rs: get_next_osmdata_blob, PBFReader::next"]}
{"id": "C76", "title": "Read errors are reported", "statement": "When the source of a PBF reader reports an error, the reader does not pretend that the data is complete: the error shows as a failure, at every position of the file.", "quantifier": "every file, every position of the error, every delivery before it, the three PBF readers", "why_tests_cant": "All positions of an error in all files.", "anchors": ["src/stringpbf/mod.rs: get_next_osmdata_blob, PBFReader::next", "src/stringpbf/node_id_pos.rs: PBFNodePositionReader::next", "src/arcpbf/mod.rs: get_next_osmdata_blob, PBFReader::next"]}
{"id": "C77", "title": "Malformed OPL text is an error", "statement": "decode_string turns every OPL text (plain characters, and characters written as hexadecimal numbers between percent signs) into the string it stands for, and reports an error for anything else.", "quantifier": "every string", "why_tests_cant": "All texts, well-formed or not.", "anchors": ["src/opl/mod.rs: decode_string"]}
{"id": "C78", "title": "Written files do not depend on how the destination takes its bytes", "statement": "Whatever sizes of writes the destination accepts, and however often a write is interrupted, a series of calls on an XML or OSC writer none of which reports an I/O error leaves in the destination exactly the bytes that the same calls leave in a destination that takes everything at once, and returns the same results. Up to and including the first call that reports an I/O error, the destination holds a proper prefix of those bytes.", "quantifier": "every destination that keeps the contract of write_all, every division of the texts into writes, every sequence of calls", "why_tests_cant": "Arbitrary behaviour of the destination at every write.", "anchors": ["src/xml/mod.rs: XMLWriter, write_xml_escaped", "src/osc/mod.rs: OSCWriter"]}
{"id": "C79", "title": "A write that failed can be repeated", "statement": "If writing an object fails with an I/O error and the caller writes the same object again with success, the output is the same as if the first call had not been made.", "quantifier": "every destination, every place of the failure, every sequence of calls before it", "why_tests_cant": "Depends on the byte at which the destination fails.", "anchors": ["src/xml/mod.rs: XMLWriter::write_obj, ensure_header", "src/osc/mod.rs: OSCWriter::write_obj, ensure_header"]}
{"id": "C80", "title": "Messages are written with the size they announce", "statement": "For every message of the file format and of the OSM format, header block included, with values in the range of their fields and smaller than 4 GiB: the size computed before writing is exactly the number of bytes written, the length written in front of every nested message (taken from the sizes stored by that computation) is the length of that message, so that serialising never panics and the bytes parse to the message; a message that lacks a required field is refused (and no other is). A header block parses from exactly the byte sequences that encode it by the protobuf rules and whose bounding box, if there is one, has all four sides.", "quantifier": "every message, every value in range, any number and length of nested messages", "why_tests_cant": "Varint lengths change at every power of 128 and the nesting multiplies the cases.", "anchors": ["src/stringpbf/osmformat.rs: compute_size, write_to_with_cached_sizes, HeaderBlock, HeaderBBox", "src/stringpbf/fileformat.rs: compute_size, write_to_with_cached_sizes"]}
{"id": "C81", "title": "Exactly which timestamps are faithful", "statement": "to_iso_string of an epoch number t denotes the instant t exactly if t fits 32 bits with sign; to_epoch_number of a valid ISO text is its instant exactly if that fits 32 bits without sign; and a chain of two equal comparisons between timestamps fails to give an equality exactly when two different texts with the same epoch number are compared through that number.", "quantifier": "every epoch number, every ISO text, every three timestamps", "why_tests_cant": "The boundary is at values no test need contain, and equality ranges over triples.", "anchors": ["src/lib.rs: TimestampFormat::to_iso_string, to_epoch_number", "src/utils.rs", "src/lib.rs: impl PartialEq for TimestampFormat, derive(Eq)"]}
{"id": "C82", "title": "Exactly what repeated keys do", "statement": "On an object that may repeat a key: unset_tag(k) removes k exactly if it occurs at most once; tag(k) is the same after conversion from Arc/Rc to String, and is the value in the JSON text, exactly if the first and the last value of k agree; the popularity report counts changesets with k exactly if no changeset repeats it.", "quantifier": "every object, every list of tags with any repetitions, every key", "why_tests_cant": "Repetitions of any number and in any order.", "anchors": ["src/obj_types/string_types.rs: unset_tag", "src/obj_types/arc_types.rs: unset_tag", "src/obj_types/mod.rs: From impls", "src/lib.rs: OSMObjBase::tags_json_string, OSMObjBase::tag", "src/obj_types/string_types.rs: tag", "src/bin/osmio-changeset-tags-to-sqlite.rs: main"]}
{"id": "C83", "title": "Exactly which XML outputs are documents", "statement": "After any sequence of set_header, write and close calls, the output of the XML writer is the document (declaration, root with the headers, the objects, root end) exactly if there was exactly one close; set_header is accepted exactly before the first write or close, or if the sink has no room for the opening of the document.", "quantifier": "every sequence of calls, every sink capacity", "why_tests_cant": "Histories of calls and failure positions.", "anchors": ["src/xml/mod.rs: XMLWriter::close, Drop", "src/xml/mod.rs: XMLWriter::ensure_header, set_header"]}
{"id": "C84", "title": "Exactly which objects come back from XML", "statement": "Writing objects with a version to XML (closed once) or OsmChange and reading the output back yields all of them, in order, exactly if every node has a position, every text consists of characters XML can carry unchanged, and timestamps given as texts need no escaping; any object that does not satisfy this spoils the file, wherever it stands.", "quantifier": "every list of objects with values in range, every sequence of writer calls", "why_tests_cant": "Unbounded texts and files.", "anchors": ["src/xml/mod.rs: XMLWriter::write_obj, XMLReader::next", "src/osc/mod.rs: OSCWriter::write_obj, OSCReader::next", "src/xml/mod.rs: node_xml_elements_to_osm_obj (lat ?), XMLWriter::write_obj (timestamp)"]}
{"id": "C85", "title": "Exactly what the XML readers return", "statement": "On a file of node, way and relation elements, the n-th call of next gives the object of the n-th element, None if that element lacks its id or a node its position; after the last element every call gives None. So a loop sees the objects before the first incomplete element, sees everything exactly if no element is incomplete, and the end is final exactly if incomplete elements stand only at the end.", "quantifier": "every file of elements, every number of calls", "why_tests_cant": "Files of any length, calls after the end.", "anchors": ["src/xml/mod.rs: XMLReader::next, node_xml_elements_to_osm_obj", "src/osc/mod.rs: OSCReader::next", "src/xml/mod.rs: XMLReader::next"]}
{"id": "C86", "title": "Exactly which cuts and errors of a PBF file are noticed", "statement": "All three PBF readers return every object of the blobs before a cut, and then panic exactly if at least the four bytes of the cut blob's size are there, else report the end; and a read error of the source at any place has exactly the effect of the end of the file at that place.", "quantifier": "every file, every cut, every place of an error, every partition of the bytes into reads", "why_tests_cant": "Every byte position of unbounded files.", "anchors": ["src/stringpbf/mod.rs: get_next_osmdata_blob (read_u32().ok()?)", "src/stringpbf/mod.rs: get_next_osmdata_blob, PBFReader::next", "src/stringpbf/node_id_pos.rs: PBFNodePositionReader::next", "src/arcpbf/mod.rs: get_next_osmdata_blob, PBFReader::next"]}
{"id": "C87", "title": "Exactly what positions and timestamps are decoded", "statement": "For every block a reader accepts, whatever granularity, offsets and date granularity it states: a node's coordinate is offset/100 + granularity/100 * raw (both quotients rounded towards zero), and is the prescribed one exactly if the parts left out cancel and it fits 32 bits; the timestamp of a way or relation is the raw number, right exactly if the date granularity is 1000 or the number 0; that of a dense node has the scale applied again at every node before it.", "quantifier": "every block accepted, every node of it", "why_tests_cant": "All combinations of granularities, offsets and deltas.", "anchors": ["src/stringpbf/mod.rs: decode_dense_nodes (scale_factor, internal_lat_offset)", "src/stringpbf/mod.rs: decode_dense_nodes (last_timestamp), decode_ways, decode_relations"]}
{"id": "C88", "title": "Exactly when visibility follows the format", "statement": "For a block of ways or relations the String reader accepts, an object is deleted exactly if its flag is not present as true; so the format is followed exactly if every object carries the flag, which is also exactly when the Arc reader accepts the block (provided no relation has a spare member type, beyond its last member, that is unknown and that the Arc reader happens to look at).", "quantifier": "every accepted block of one group of ways or relations", "why_tests_cant": "Every combination of flags.", "anchors": ["src/stringpbf/mod.rs: decode_ways (visible.unwrap_or(false)), decode_relations, decode_dense_nodes"]}
{"id": "C89", "title": "Exactly when the position reader agrees", "statement": "For every file the full reader reads to the end, the position reader yields the positions of exactly the nodes the full reader yields, in order and without panic, exactly if every data blob is compressed, not empty and has one group, and every group without ways and relations has a dense part while in one with ways or relations that part has no nodes.", "quantifier": "every file the full reader accepts", "why_tests_cant": "Every structure of blobs and groups.", "anchors": ["src/stringpbf/node_id_pos.rs", "src/stringpbf/mod.rs: decode_dense_nodes"]}
{"id": "C90", "title": "Exactly which encodings of the same data are read the same", "statement": "The same block data stored raw or with zlib is read the same by the Arc reader always, by the String and position readers exactly if there is no data (or the data stops them anyway); a dense group without key/value column is read like one that says no node has tags by the Arc and position readers always, by the String reader exactly if the group has no nodes (or is not read, or stops it anyway).", "quantifier": "every data, every block, every dense group", "why_tests_cant": "Every content.", "anchors": ["src/stringpbf/mod.rs: blob_raw_data", "src/arcpbf/mod.rs: blob_raw_data", "src/stringpbf/mod.rs: decode_dense_nodes (keys_vals loop)", "src/arcpbf/mod.rs: has_tags"]}
{"id": "C91", "title": "Exactly what becomes of uneven columns, user ids and strings that are not text", "statement": "Of every block a reader accepts: the number of tags and members of a way or relation is that of the shortest of their columns, and the String reader accepts keys and values only of equal length; replacing the user ids by any others from 0 to 2^31-1 changes nothing else, except that both readers panic exactly if a dense node gets 2^31-1; the Arc reader keeps all tags of an object exactly if their strings are text, and all members exactly if their roles are.", "quantifier": "every accepted block, every assignment of user ids, every string table", "why_tests_cant": "Every combination of lengths, ids and bytes.", "anchors": ["src/stringpbf/mod.rs: decode_ways, decode_relations", "src/arcpbf/mod.rs: decode_ways, decode_relations", "src/stringpbf/mod.rs: decode_dense_nodes", "src/arcpbf/mod.rs: decode_dense_nodes", "src/stringpbf/mod.rs: decode_block_to_objs, decode_primitive_group_to_objs", "src/arcpbf/mod.rs: decode_ways, decode_relations, decode_dense_nodes"]}
{"id": "C92", "title": "Exactly what a kind iterator leaves behind", "statement": "After nodes(), ways() or relations() on a PBFReader in any state, objects() yields what was already decoded and then exactly those objects of the rest of the file that are of the kind: everything exactly if all of the rest is of the kind.", "quantifier": "every file with groups of one kind, every state of the reader", "why_tests_cant": "Every state in which the call can be made.", "anchors": ["src/stringpbf/mod.rs: PBFReader::nodes, ways, relations, next", "src/lib.rs: OSMReader::objects"]}
{"id": "C93", "title": "Exactly what the changeset readers reply", "statement": "ChangesetReader::next returns exactly on inputs that do not end inside a changeset. For every file of well-formed pieces the tag reader's replies are: per changeset with content, an error for an id that is not a number, an error for every bad tag, and then its good tags under its own id, or under the last id seen, or an error if there is none; so every changeset's tags come under its own id exactly if no changeset without id follows one with an id.", "quantifier": "every input, every file of pieces", "why_tests_cant": "Files of any length.", "anchors": ["src/changesets.rs: ChangesetReader::next_changeset (inner loop ignores Eof)", "src/changesets.rs: ChangesetTagReader::next_tag (curr_id)"]}
{"id": "C94", "title": "Exactly which objects are equal", "statement": "Two objects of the same family are == exactly if every getter other than timestamp returns the same, the timestamps are == (or both absent) and, for Arc/Rc nodes, both or neither have a tag list.", "quantifier": "every two objects", "why_tests_cant": "All pairs of objects.", "anchors": ["src/obj_types/arc_types.rs: ArcNode derive(PartialEq), set_tag, unset_tag", "src/obj_types/string_types.rs: StringNode derive(PartialEq)"]}
{"id": "C95", "title": "Deleted objects of change files", "statement": "An object inside a <delete> block of a change file is reported as deleted exactly if its own element says visible=\"false\".", "quantifier": "every change file with a delete block, every element in it", "why_tests_cant": "Every element and content.", "anchors": ["src/osc/mod.rs: OSCReader::next", "src/xml/mod.rs: xml_elements_to_osm_obj"]}
{"id": "C96", "title": "Exactly which failed writes can be repeated", "statement": "If writing an object fails and the same object is then written with success, the output is as if the first call had not been made exactly if the failed call had written nothing, or exactly the opening of the document.", "quantifier": "every destination that reports errors as its contract says, every history", "why_tests_cant": "Every byte at which the destination fails.", "anchors": ["src/xml/mod.rs: XMLWriter::write_obj, ensure_header", "src/osc/mod.rs: OSCWriter::write_obj, ensure_header"]}
{"id": "C97", "title": "Exactly what OPL encoding and the node store keep", "statement": "An OPL string survives encoding and decoding exactly if it has no percent sign, a tag map exactly if none of its keys and values has one, a way's node list exactly if it is not empty, a member list exactly if it is not empty and no role has a comma; the node store answers like a map exactly for ids up to the highest one set whose position is not the reserved one.", "quantifier": "every string, map and list, every sequence of set calls", "why_tests_cant": "Unbounded texts and histories.", "anchors": ["src/opl/mod.rs: encode_string, decode_string", "src/opl/mod.rs: encode_tags, decode_tags, encode_way_nodes, decode_way_nodes, encode_members, decode_members", "src/nodestore.rs: NodeStoreWriter::set, NodeStoreReader::get"]}
{"id": "C98", "title": "Builders give what was set", "statement": "Building a node, way or relation fails exactly if no id was given to the builder; otherwise every getter of the object returns the value given last for its field, and the documented default (absent, not deleted, no tags, no nodes, no members) for a field never given. The order of setter calls for different fields does not matter.", "quantifier": "every sequence of setter calls on a builder of each of the three kinds", "why_tests_cant": "Sequences of calls of any length, with fields set repeatedly.", "anchors": ["src/obj_types/string_types.rs: StringNode, StringWay, StringRelation, Builder", "src/obj_types/mod.rs: StringNodeBuilder, StringWayBuilder, StringRelationBuilder"]}
{"id": "C99", "title": "Coordinates are ordered like degrees", "statement": "Comparing two latitudes (or longitudes) gives the same as comparing their degrees, as real numbers and as f64; and converting a larger number of degrees never gives a smaller coordinate (nor does a larger number succeed where a smaller one is too large).", "quantifier": "every two coordinates, every two finite f64 numbers", "why_tests_cant": "All pairs of 2^32 values, all pairs of floating-point numbers.", "anchors": ["src/lib.rs: lat_lon_impl! degrees, PartialOrd, Ord, TryFrom<f64>"]}
{"id": "C100", "title": "Coordinate texts mean what they say", "statement": "A decimal text (with sign, leading or trailing zeros and exponent in any form) that stands for a whole number n of 10^-7 degrees is read as exactly n, and fails as too large or too small exactly if n does not fit 32 bits. Any other decimal text is read as a value within half a unit (and 5e-7 of a unit) of the real number it stands for, or fails on the right side.", "quantifier": "every decimal number text of any length", "why_tests_cant": "Texts of any length; two floating-point roundings in between.", "anchors": ["src/lib.rs: lat_lon_impl! FromStr"]}
{"id": "C101", "title": "Exactly which PBF files can be read", "statement": "A PBF file of well-formed frames is read to its end exactly if every data blob in it is accepted; otherwise the reader returns the objects of the blobs before the first one that is not and then panics. A block is accepted by the String reader exactly if it has one group, and of the kinds of objects asked for: no plain nodes, all strings are text, every column is long enough, every string index is in the table and leads to text where a name is needed, raw coordinates fit 32 bits, no user id of a dense node is 2^31-1, ways and relations have all of id, version, timestamp, changeset, uid and user and as many keys as values, member types are known, and (in a build that checks for overflow) no sum or product overflows. For the Arc reader several groups are allowed, strings that are not text are allowed except as user names, the key/value column may be left out, ways and relations need the visible flag, and empty groups are refused. The position reader looks only at ids and positions. Columns of keys and values (Arc reader) or of members that differ in length are cut to the shortest; the spare element after the last common one may or may not be looked at, depending on the standard library, and if it is it must be in order too.", "quantifier": "every file of frames, every block a message can hold, every choice of kinds, both build profiles, every way the standard library's zip may treat a spare element", "why_tests_cant": "All messages; both that nothing else panics and that each of these does.", "anchors": ["src/stringpbf/mod.rs: decode_block_to_objs, decode_primitive_group_to_objs, decode_dense_nodes, decode_ways, decode_relations, PBFReader::next", "src/arcpbf/mod.rs: decode_block_to_objs, PBFReader::next", "src/stringpbf/node_id_pos.rs: PBFNodePositionReader::next"]}
{"id": "C102", "title": "What the PBF readers make of any bytes", "statement": "Whatever bytes a reader is given, they are a sequence of frames (four length bytes, a header that is an encoding of a complete BlobHeader, and as many bytes as it says, which for frames of type OSMData are an encoding of a Blob) followed by a rest that does not begin with such a frame. The readers return the objects of the data blobs in order: up to the end, which is reported, if every blob is accepted and fewer than four bytes are left; up to the first blob that is not accepted, or else to the rest, followed by a panic, otherwise. A blob is accepted if it holds an encoding of a block that is accepted as in C101, and then its objects are the ones that block means and no others. Frames of other types are passed over without looking inside. Bytes are an encoding exactly if they follow the protobuf rules, fields of a known number but another wire type being ignored.", "quantifier": "every sequence of bytes, every decompressor, every choice of kinds, both build profiles, every way the standard library's zip may treat a spare element", "why_tests_cant": "All byte sequences, including the malformed ones: that nothing else is accepted, and that nothing acceptable is refused.", "anchors": ["src/stringpbf/mod.rs: FileReader::get_next_osmdata_blob", "src/stringpbf/mod.rs: PBFReader::next", "src/arcpbf/mod.rs: PBFReader::next", "src/stringpbf/node_id_pos.rs: PBFNodePositionReader::next", "src/stringpbf/osmformat.rs: merge_from", "src/stringpbf/fileformat.rs: Blob, BlobHeader"]}
{"id": "C103", "title": "Coordinates, timestamps and object types survive JSON", "statement": "Serialising a Lat, a Lon, a TimestampFormat or an OSMObjectType with serde_json gives a JSON text: the inner number of a coordinate, an object with the one member ISOString or EpochNumber for a timestamp, the name Node, Way or Relation for an object type. Deserialising that text gives the value back. Deserialising accepts exactly: for coordinates, texts that are one JSON number written without fraction or exponent (and not -0) that fits 32 bits; for timestamps, objects with exactly one member, named ISOString with a string or EpochNumber with such a number that fits 64 bits; for object types, the name as a string, or an object whose one member has that name and is null.", "quantifier": "every coordinate, timestamp and object type; every text", "why_tests_cant": "All values and all texts, with every escape and every number at the limits of the type.", "anchors": ["src/lib.rs: Lat, Lon, TimestampFormat, OSMObjectType"]}
{"id": "C104", "title": "PBF readers read no further than they must", "statement": "After taking k objects from a PBF reader, the source that inner or into_inner gives back stands exactly behind the fewest frames of the file that together hold k objects: frames that hold none (a header, a block the reader's filter empties) are read only on the way to a later object. Everything behind that frame, including bytes after the file that are no frame, is untouched. On any source, whatever it holds, a call that returns leaves an end of the source, a call that finds an object waiting does not read at all, and when the reader reports the end nothing of the source is left.", "quantifier": "every file of frames with every tail, every number of objects taken, every kind filter; for the second part every source and every reader state; the String, Arc and node-position readers", "why_tests_cant": "The position depends on how objects are spread over frames and on how many were taken; all combinations matter.", "anchors": ["src/stringpbf/mod.rs: PBFReader, inner, into_inner, get_next_osmdata_blob", "src/arcpbf/mod.rs: PBFReader", "src/stringpbf/node_id_pos.rs: PBFNodePositionReader"]}
{"id": "C105", "title": "A writer's end never loses output silently", "statement": "When an XML or OSC writer goes out of scope after any calls, the destination has received everything the calls and one more close produce, or the drop panics and the destination holds as much of it as it had room for. into_inner never returns: it panics after the same output was delivered, and aborts the process if the destination had no room for it. from_iter returns a closed writer that has delivered the whole document exactly if every object has a version and the destination had room; otherwise it panics, leaving the objects up to the first without a version, the beginning of that one and the end of the document (as far as there was room), and aborts the process exactly if there was no room.", "quantifier": "every call history, every list of objects, destinations that never fail or fail for good after any number of bytes", "why_tests_cant": "All histories and every point at which the destination can fail, including during the drop and during unwinding.", "anchors": ["src/xml/mod.rs: Drop, into_inner, close", "src/osc/mod.rs: Drop, into_inner, close", "src/lib.rs: from_iter"]}
{"id": "C106", "title": "Exactly which PBF files the readers return the meaning of", "statement": "Take a PBF file whose blocks mean some objects by the rules of the format, all values fitting the library's types. The Arc reader returns exactly those objects, in order, and then the end of the file, if and only if every compressed blob states a size that is not negative and every group is right: the dense nodes' positions survive cutting granularity and offsets to multiples of 100 nanodegrees, their times survive the reader's repeated scaling, no user id is 2^31-1 (nor, with overflow checks, larger) and user name indexes fit 32 bits; every way and relation states its visible flag, and its time is the stored number unscaled. The String reader does if and only if in addition no blob is uncompressed and every block has exactly one group.", "quantifier": "every sequence of blobs, every block with a meaning, both build profiles, every decompressor", "why_tests_cant": "An if-and-only-if over all files.", "anchors": ["src/stringpbf/mod.rs: PBFReader::next, decode_block, blob_raw_data", "src/arcpbf/mod.rs: PBFReader::next, decode_block, blob_raw_data"]}
{"id": "C107", "title": "XML sources that fail lose no complete object", "statement": "If the source of an XML or OSC reader delivers the first k bytes of a file written by the library (all of them, or any number fewer) and then reports an I/O error, the reader returns exactly the objects whose text is complete in those bytes, in order, and then panics; it never reports a regular end.", "quantifier": "every document written by the library and every number of bytes", "why_tests_cant": "Quantifies over all documents and all failure points.", "anchors": ["src/xml/mod.rs: XMLReader::next", "src/osc/mod.rs: OSCReader::next"]}
{"id": "C108", "title": "Changeset dumps are read from bytes whatever their layout", "statement": "For every XML text made of changeset elements - quotes of either kind, white space in tags, comments, CDATA, processing instructions and references in the character data, values spelled with named or decimal references - ChangesetReader returns the changesets of the text one for one and the tag reader their ids and tags. In particular a dump of any list of changesets with text in any characters is read back as those changesets.", "quantifier": "every list of changesets and every way of writing it as a text", "why_tests_cant": "Quantifies over all layouts, values and lengths.", "anchors": ["src/changesets.rs: ChangesetReader::from_reader, ChangesetReader::next_changeset, ChangesetTagReader::next_tag"]}
{"id": "C109", "title": "What a truncated or failing changeset dump yields", "statement": "If the bytes of a changeset dump stop at any place, the changeset reader returns every complete changeset before that place and then: between changesets the regular end, or one error if the place is inside a markup; inside a changeset one error if the place is inside a markup, and otherwise the next call never returns. If the source fails with an I/O error instead of ending, there is always exactly one error after the complete changesets. The tag reader always returns, silently dropping an incomplete changeset unless the place is inside a markup or the source fails.", "quantifier": "every dump and every number of bytes delivered", "why_tests_cant": "Quantifies over all dumps and all cut points, and one case is non-termination.", "anchors": ["src/changesets.rs: ChangesetReader::from_reader, ChangesetReader::next_changeset, ChangesetTagReader::next_tag"]}
{"id": "C110", "title": "Compressed files, complete and cut", "statement": "A bzip2 file of any number of streams, however the text is divided among them, is read as its text: read_xml returns the objects, ChangesetReader::from_filename and from_bz2_reader the changesets, ChangesetTagReader::from_filename the ids and tags. If the file ends inside a stream, the changeset readers return what is complete in the data delivered and then always an error; only a file that ends exactly between two streams can go unnoticed. The XML reader returns the objects that are complete in the data delivered and then panics, wherever the file ends.", "quantifier": "every compression format and decoder of the MultiBzDecoder kind, every division into streams, every text and every cut", "why_tests_cant": "Quantifies over all files, divisions into streams and cut points.", "anchors": ["src/changesets.rs: ChangesetReader::from_filename, ChangesetReader::from_bz2_reader, ChangesetTagReader::from_filename", "src/xml/mod.rs: from_filename_bz2", "src/lib.rs: read_xml"]}
{"id": "C111", "title": "Copying a file", "statement": "Every object the XML and change readers return, from whatever bytes and however reading ends, has its numbers in the ranges of their types and only XML characters in its texts, and its timestamp is text. Writing what was read (all objects having a version, the XML writer closed once, well-formed headers) gives a file from which exactly the same objects are read again, exactly if each node has a position, no timestamp contains an ampersand, a less-than sign or a double quote, and no text contains white space that the parser changes (which can only have come from a character reference). Copying a file made by the writer gives the same bytes again, for XML up to the order of the headers in the root element.", "quantifier": "every file, however it was made and however reading it ends, every call history of the writer that writes what was read, every order in which the writer lists its headers, every parser behaviour on white space in attributes", "why_tests_cant": "Quantifies over all files and all writer histories.", "anchors": ["src/xml/mod.rs: XMLReader, XMLWriter, get_xml_attribute, xml_elements_to_osm_obj", "src/osc/mod.rs: OSCReader, OSCWriter"]}
{"id": "C112", "title": "XML files of any layout", "statement": "The XML and change readers depend on a file only through its elements and their attributes: any two ways of writing the same document (white space, either quotes, empty-element tags or start and end tags, named, decimal or hexadecimal references, comments, CDATA, processing instructions, text) are read as the same objects. If no object element is inside another one, the objects returned are those the node, way and relation elements denote, in document order and at any depth, up to the first element that denotes none; the file has then been read to its end exactly if there is no such element. A well-formed file never makes a reader panic, and a reader gets to the end of a file only if the file is well-formed.", "quantifier": "every text and every byte sequence, every tree of elements, every layout, every parser behaviour on white space in attributes", "why_tests_cant": "There are unboundedly many layouts of every document and unboundedly many ill-formed byte sequences.", "anchors": ["src/xml/mod.rs: XMLReader, get_xml_attribute, xml_elements_to_osm_obj", "src/osc/mod.rs: OSCReader"]}
{"id": "C113", "title": "Reading on after a panic", "statement": "A program that catches the panics of a PBF reader and goes on calling it loses no more than the rest of the blob that caused each one: every blob of the file makes the reader panic at most once, the objects of every undamaged blob are returned in full and in order wherever the damaged ones are, and of a damaged blob the String reader and the node position reader still return, after the panic, the objects of the longest beginning of its block that can be decoded, the arc reader none. A file cut in the middle of a blob gives one panic and then the end (no panic if fewer than four bytes are left). After a header that cannot be parsed the reader has lost its place: what follows the header is read as if it were the beginning of a file. Calling a reader again after every panic always comes to an end. The XML and change readers do not go on: after a panic they report the end.", "quantifier": "every sequence of frames with any data, every tail of bytes, every source and buffer, every filter, build profile and decompressor", "why_tests_cant": "The positions and kinds of damage in a file are unbounded, and the state left behind by a panic is only visible in later calls.", "anchors": ["src/stringpbf/mod.rs: FileReader, PBFReader, decode_primitive_group_to_objs, decode_block_to_objs, blob_raw_data", "src/stringpbf/node_id_pos.rs: PBFNodePositionReader, decode_block_to_objs", "src/arcpbf/mod.rs: FileReader, PBFReader, decode_block_to_objs", "src/xml/mod.rs: XMLReader", "src/osc/mod.rs: OSCReader"]}
{"id": "C114", "title": "The Debug form of coordinates", "statement": "The Debug text of a latitude or longitude is the shortest decimal of its degrees, with an exponent below 0.0001 degrees and with at least one decimal otherwise; parsing it gives the same coordinate back, so different coordinates print differently. It equals the Display text exactly for coordinates of at least 0.0001 degrees that are not a whole number of degrees.", "quantifier": "every 32-bit coordinate", "why_tests_cant": "There are 2^32 coordinates, and the switch to exponents depends on a floating point comparison.", "anchors": ["src/lib.rs: lat_lon_impl, Debug, Display, FromStr"]}
{"id": "C115", "title": "Object elements inside one another", "statement": "For every well-formed XML file, the XML and change-file readers take an object element to end at the first end tag of any node, way or relation that follows it, and stop, without an error, at the first element that denotes no object or end tag of an object element where none is being read. They reach the end of the file exactly if no node, way or relation element is inside another and all of them denote objects, and have then returned exactly those objects; otherwise objects that the file contains can be lost without an error.", "quantifier": "every well-formed XML document of any depth, width and layout", "why_tests_cant": "The trees are unbounded; whether nesting is harmless depends on every level.", "anchors": ["src/xml/mod.rs: XMLReader::next", "src/osc/mod.rs: OSCReader::next"]}
{"id": "C116", "title": "Timestamps can be sorted", "statement": "Any two timestamps, texts or epoch numbers, can be compared, with opposite answers from the two sides. On a collection of timestamps the comparison is transitive, so that the collection can be put in order, exactly if no epoch number in it lies between (or is) the instants of two texts in it whose text order is the other way round. Collections of one kind, and mixed collections of canonical timestamps between 1970 and 2106, are of that kind; three valid timestamps written with time zones can go round in a circle, and then no arrangement of them is sorted.", "quantifier": "every collection of timestamps, of any size, both representations, any texts", "why_tests_cant": "Transitivity ranges over all triples of arbitrary texts and numbers, and orderability over all arrangements.", "anchors": ["src/lib.rs: TimestampFormat, PartialOrd, to_epoch_number", "src/utils.rs: iso_to_epoch"]}
{"id": "C117", "title": "The read speed program counts right", "statement": "For every PBF file and whatever the clock shows, osmio-pbf-read-speed prints at the end the number of objects the reader returned, in groups of three digits; if the reader panics it prints no total. Its progress lines carry multiples of a million, and one appears after every million objects exactly if more than a second has passed since the line before (or the start).", "quantifier": "every file, every sequence of clock readings", "why_tests_cant": "The output depends on the clock and on files with many millions of objects.", "anchors": ["src/bin/osmio-pbf-read-speed.rs: main"]}
{"id": "C118", "title": "PBF readers hold at most one block", "statement": "However a PBF reader has been used (objects taken, filters changed, on any source, valid or not), the decoded objects it holds are the end of what one block decodes to: the block that ends exactly where the unread rest of the source begins, and at least one object of it has been returned. A filter set later does not change what is held. So memory does not grow with the file.", "quantifier": "every source, every sequence of calls, every filter, all three PBF readers", "why_tests_cant": "It is an invariant over all call histories on all byte sequences, including damaged files.", "anchors": ["src/stringpbf/mod.rs: PBFReader::next", "src/arcpbf/mod.rs: PBFReader::next", "src/stringpbf/node_id_pos.rs: PBFNodePositionReader::next"]}
{"id": "C119", "title": "References sort in file order", "statement": "The order of object types, and of pairs of a type and an id, is total and strict, and lists sorted by it are exactly those with first nodes, then ways, then relations, each by increasing id, the usual order of an OSM file. It is not the order of the types' names.", "quantifier": "all pairs of a type and an id, all lists of them", "why_tests_cant": "It ranges over all ids and all lists.", "anchors": ["src/lib.rs: OSMObjectType"]}
{"id": "C120", "title": "The Debug text shows the whole object", "statement": "Two objects of the same kind of type (String, Arc, Rc) have the same Debug text, compact {:?} or indented {:#?}, exactly if all their fields are identical, whatever characters their texts contain; so what osmio-osc-debug writes shows exactly which objects were read, even if a panic message follows. Objects that compare equal can have different Debug texts (the stored form of the timestamp shows). The texts consist of the names of the fields, each with its value in Rust's notation: texts as string literals that denote them, None and Some(..), lists in brackets; {:#?} puts everything inside something on lines of its own, indented by four spaces and ended by a comma.", "quantifier": "all objects, all texts in them, any table of printable characters, all sequences of objects", "why_tests_cant": "A text in an object can imitate any part of the output; only a proof over all texts excludes a confusion.", "anchors": ["src/obj_types/string_types.rs: StringOSMObj", "src/obj_types/arc_types.rs: ArcOSMObj", "src/obj_types/rc_types.rs: RcOSMObj", "src/lib.rs: OSMObjectType", "src/bin/osmio-osc-debug.rs: main"]}
{"id": "C121", "title": "XML files that say the same are read the same", "statement": "Two well-formed XML files give the same objects and end or fail at the same object, with both XML readers, if they differ only in: the order of attributes, attributes OSM does not define, elements OSM does not define (with nothing OSM defines in them), the names and attributes of elements that are not objects or their parts (so also osm against osmChange and create against modify), and the order between tag, nd and member elements; besides character data, comments, quotes and references as in C112. The order among the references of a way (or tags, or members) is kept, so it does matter.", "quantifier": "all pairs of well-formed documents of any depth that are related by any number of such changes", "why_tests_cant": "The readers work on the sequence of tags, not on the tree; which rearrangements it does not notice is a statement about all pairs of files.", "anchors": ["src/xml/mod.rs: XMLReader::next", "src/xml/mod.rs: xml_elements_to_osm_obj", "src/osc/mod.rs: OSCReader::next"]}
{"id": "C122", "title": "A file of another format is not taken for data", "statement": "The XML and change-file readers panic at the first call, before any object, on every file that begins with an ASCII character other than < and white space (so on bzip2 and PBF files). The PBF readers panic at the first call on every file of at least four bytes that is shorter than its first byte times 2^24 (so on XML and bzip2 files under 960 MB). read_xml panics at the first call on everything that does not begin as bzip2 does, and the changeset readers opened by name report an error and then the end. Between the kinds of XML nothing is noticed: a file of objects is read as a changeset dump without changesets and the reverse.", "quantifier": "all files of the given beginnings and lengths, all continuations", "why_tests_cant": "Whatever follows the first bytes, no object must come out: this ranges over all files.", "anchors": ["src/xml/mod.rs: XMLReader::next", "src/xml/mod.rs: from_filename_bz2", "src/osc/mod.rs: OSCReader::next", "src/stringpbf/mod.rs: get_next_osmdata_blob", "src/arcpbf/mod.rs: get_next_osmdata_blob", "src/stringpbf/node_id_pos.rs: PBFNodePositionReader", "src/lib.rs: read_xml", "src/changesets.rs: ChangesetReader::from_filename"]}
{"id": "C123", "title": "Editing a file changes what was edited and nothing else", "statement": "Read objects from an XML, change or PBF file, make any calls of setters on each of them, write them with the XML or change writer and read the result: the same objects come in the same order, every field has the value of the last call that set it (a timestamp as text) and otherwise the value it had in the original file, and so has every tag of an object that does not repeat keys. The texts must be ones XML can carry, and neither the version nor the position of a node may be removed.", "quantifier": "all files that can be copied (C111) or converted (C67), all numbers of objects, all sequences of setter calls with arguments of the right types, all headers", "why_tests_cant": "It is about every combination of file contents and edits.", "anchors": ["src/lib.rs: OSMObjBase", "src/obj_types/string_types.rs: StringOSMObj", "src/xml/mod.rs: XMLReader::next", "src/xml/mod.rs: xml_elements_to_osm_obj", "src/osc/mod.rs: OSCReader::next", "src/stringpbf/mod.rs: PBFReader"]}
{"id": "C124", "title": "Changeset dumps that differ only in insignificant ways are read the same", "statement": "Two changeset files whose changeset elements have the same known attributes, in any order, with any namespace prefixes and any further attributes, and the same tag elements, in any order if no key is repeated, with any comments, text and other elements between them, give the same number of replies, each time both an error or both a changeset with the same fields and the same value for every key. The tag reader gives exactly the same replies if the tags are in the same order and all changesets are valid.", "quantifier": "all texts of all well-formed changeset files: all layouts, orders and additions", "why_tests_cant": "There are infinitely many ways to write the same dump; tests compare a few.", "anchors": ["src/changesets.rs: ChangesetReader", "src/changesets.rs: ChangesetTagReader", "src/changesets.rs: ChangesetBuilder"]}
{"id": "C125", "title": "Files put end to end", "statement": "Reading two files put end to end: the changeset reader gives the replies for the first file, if it is complete, and then those for the second, whatever the second one is; the tag reader does so if the changesets of both files are valid; the OPL reader does so if every line of the first file is an object and ends with a line break. XML and change readers return all objects of the first document and then panic: nothing of the second document is lost silently.", "quantifier": "all complete changeset dumps in any layout followed by any bytes; all pairs of valid dumps; all OPL files followed by any bytes; all pairs of well-formed XML documents whose object elements are complete and not nested", "why_tests_cant": "It is about all pairs of files.", "anchors": ["src/changesets.rs: ChangesetReader", "src/changesets.rs: ChangesetTagReader", "src/xml/mod.rs: XMLReader::next", "src/osc/mod.rs: OSCReader::next", "src/opl/mod.rs: OPLReader"]}
{"id": "C126", "title": "Every line of an OPL file is read on its own", "statement": "The i-th call of next on an OPL file gives what the i-th line says: its object, None if the line is blank, not text or not an object, or a panic. Lines that are no objects and panics that were caught have no effect on later calls, and after the last line every call gives None.", "quantifier": "all byte sequences, all numbers of calls", "why_tests_cant": "It is about every line of every file in every context.", "anchors": ["src/opl/mod.rs: OPLReader", "src/opl/mod.rs: decode_line"]}
{"id": "C127", "title": "The changeset tag program, from compressed file to database and report", "statement": "Whatever bytes osmio-changeset-tags-to-sqlite is given and whatever fails, either it fails, prints no report and leaves no row in the database wherever it stops, or the whole file was decompressed, the table has exactly one row for every changeset of the text and the printed report is about exactly these. For a dump of changesets with different ids in any number of bzip2 streams it succeeds with all of them. If the file has lost its end inside a stream it always fails; if the file ends between two streams it fails if the text ends inside a markup, and otherwise succeeds with the changesets that are complete in the text.", "quantifier": "all input files, all bzip2 decoders, all patterns of failing database calls, all points at which the program stops, all dumps and divisions into streams", "why_tests_cant": "It is about every file, every cut and every failure.", "anchors": ["src/bin/osmio-changeset-tags-to-sqlite.rs: main", "src/changesets.rs: ChangesetTagReader::from_filename"]}
{"id": "C128", "title": "An OPL file that has lost its end", "statement": "If a file of OPL objects is cut anywhere, reading it gives the objects of the lines that are whole, or these and one more, or a panic. The one more has the type, metadata and tags of the object of the line that was cut; only its last part is cut short: the latitude of a node is read from a shorter text, the nodes of a way and the members of a relation are the first ones, the last node id is read from a shorter text and the last role may be shorter. Such a shortened object is not reported, so not every object read need have been in the file. The line break at the end of the file does not matter.", "quantifier": "all OPL files whose lines are objects, all points at which they are cut, all parsers of coordinates", "why_tests_cant": "It is about every file and every cut.", "anchors": ["src/opl/mod.rs: OPLReader", "src/opl/mod.rs: decode_line", "src/opl/mod.rs: decode_way_nodes", "src/opl/mod.rs: decode_members"]}
{"id": "C129", "title": "The node store when its writer stops", "statement": "Wherever a program that fills a node store stops, and however the buffered bytes have been passed on to the file until then: everything set by calls that have returned is in the file, except perhaps what the last of them set. A reader of the file gets for every id other than that of the last returned call or the call being made the position last set before it, and None or a panic if there is none; of the eight bytes of that one id some, from the front, may be new and the others as before. When the writer is dropped the file is that of all calls. That every returned call is in the file, and that every position found was set, is false.", "quantifier": "all histories of set calls, all buffer capacities and ways of splitting writes, all points at which the program stops", "why_tests_cant": "It is about every history, every schedule of the buffer and every crash point.", "anchors": ["src/nodestore.rs: NodeStoreWriter::set", "src/nodestore.rs: NodeStoreWriter::create", "src/nodestore.rs: NodeStoreReader::get"]}
{"id": "C130", "title": "Reading a node store while it is being written", "statement": "A reader may call get on a node store's file while the writer is still filling it, and the eight bytes of one get may be read at different moments. Once the call that sets an id last and one more call have returned, every get of this id from then on returns the position set, however reads and writes interleave. An id that is never set is never found: get returns None or panics. Whatever get reads for an id, each byte is that of a position set for this very id or of the mark for no position. That every position found was set is false, even if the writer always passes on whole positions.", "quantifier": "all histories of set calls, all schedules of the buffer, all interleavings of the bytes a get reads with the steps of the writer", "why_tests_cant": "It is about every history and every interleaving of two programs.", "anchors": ["src/nodestore.rs: NodeStoreWriter::set", "src/nodestore.rs: NodeStoreReader::get"]}
{"id": "C131", "title": "Coordinates shown with a precision", "statement": "A latitude or longitude formatted with a precision of n digits (format!(\"{:.n}\"), for Display and Debug alike), n up to 13, is a decimal number with exactly n digits after the point, nearest to the coordinate: off by at most half a unit of the last digit. With 7 to 13 digits it is exactly the coordinate, and parsing it gives the coordinate back; with fewer, parsing the text of a coordinate between -180 and 180 degrees gives one that is off by at most half a unit of the last digit shown. With 14 digits the digits after the seventh are not always zeros.", "quantifier": "all coordinates, all precisions up to 13, all rules for ties", "why_tests_cant": "There are 2^32 coordinates for each precision and the value shown is that of a rounded binary number.", "anchors": ["src/lib.rs: lat_lon_impl", "src/lib.rs: lat_lon_inner_to_degrees"]}
