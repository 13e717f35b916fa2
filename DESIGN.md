# A Rocq (Coq 8.16.1) model of amandasaurus/osmio

The properties are in `properties.jsonl` (C01, C02, ...), the status of each in
`MANIFEST.json`, the model and proofs in `rocq/theories`, the experiments with
wrong programs in `seeded/LOG.jsonl`.

## Method

* Each Rust function becomes a total Gallina function. A comment above every
  definition cites the file and lines it models.
* Panics (`unwrap`, `expect`, `assert!`, slice indexing, `unimplemented!`,
  arithmetic overflow in an overflow-checked build) are an explicit outcome
  `Panic`. `Result`/`Option` values of the API stay ordinary data.
* `&mut self` methods return the new state. Iterators are functions from a
  state to (item, new state); loops are structural recursion, or recursion on a
  fuel that is shown to be enough (or, for C48, shown never to be enough).
* Integers are `Z`, with explicit wrap-around functions for `as` casts and an
  explicit choice (`chk : bool`) for what `+`/`*` do on overflow: panic
  (debug build) or wrap (release build). Theorems hold for both. Strings are
  lists of Unicode scalar values (`list Z`), byte strings are lists of bytes.
* Specifications are separate from the model (`Spec*.v` files): calendar by
  counting days, RFC 3339 grammar, finite maps, XML/JSON unescaping, OSM PBF
  denotation with running sums, and so on.
* `Props*.v` files hold the final statements, each accompanied by a concrete
  non-trivial instance of its hypotheses and by `Print Assumptions`.
* A property that is false of the code is kept as stated. A theorem named
  `..._refuted` exhibits the failure (a witness, or a whole class of them), and
  a `..._partial` theorem states what does hold.
* Calls into other crates are either modelled from their documentation (listed
  below as trusted) or are parameters that the theorems quantify over.

## What is modelled, and how each property is proved

| id | modelled | proof |
|---|---|---|
| C01 | `write_xml_escaped`; entity resolution as spec | induction on the string |
| C02 | integer Display and `str::parse` | induction on digits, positional value as spec |
| C03-C05 | `degrees`, `Display`, `FromStr`, `TryFrom<f64>` over Flocq binary64 | rounding-error bounds |
| C06 | same | refuted by NaN; exact behaviour as partial theorem |
| C07 | `set_lat_lon` | case analysis |
| C08-C10 | `epoch_to_iso`, `iso_to_epoch`, chrono's RFC 3339 parser, `TimestampFormat` | calendar by day counting; sweep over one 400-year cycle lifted by periodicity |
| C11-C12 | `PartialOrd`/`PartialEq` for `TimestampFormat` | lexicographic order of fixed-width digits; refutation of transitivity |
| C13-C18, C57 | objects of the three representations, setters, conversions, derived equality | induction over operation histories; refutations on repeated keys |
| C19 | `is_closed`, `is_area` | list reasoning |
| C20, C63 | `tags_json_string` incl. serde_json escaping and BTreeMap order | a JSON parser as spec, run on the output for every object |
| C21 | `OSMObjectType` | exhaustive on types, inversion on texts |
| C22 | provided methods of `OSMReader` | induction over the stream |
| C23-C26, C58 | `XMLWriter`, `OSCWriter` as state machines over a sink that may fail after any number of bytes | invariant over call sequences; refutation of double close |
| C27-C29, C60 | writer text + an XML tokenizer + `XMLReader`/`OSCReader` | tokenizer run composes over concatenation; induction over objects; refutations; exactness (`XmlExact`): a text that needs escaping and is not escaped never comes out as a value of the same length |
| C30-C31, C59 | `xml_elements_to_osm_obj` and helpers | permutation/insertion lemmas |
| C32 | generated `merge_from` / `write_to_with_cached_sizes` | wire-format round trip per message |
| C33-C34 | `get_next_osmdata_blob` | induction over blobs; refutation for cuts in the length prefix |
| C35-C39, C62 | `decode_dense_nodes`, `decode_ways`, `decode_relations` | loop invariants against prefix sums; refutations |
| C40-C46, C61 | `decode_block_to_objs` (String, Arc), `PBFReader`, `PBFNodePositionReader` | induction over blocks; an encoder for whole files; refutations |
| C47-C50 | `ChangesetReader`, `ChangesetTagReader` over quick-xml events | induction over events; divergence by unbounded fuel |
| C51-C54, C66 | `opl` decoder and the line format of its writer | induction; refutations; equivalence of the decoder with a grammar of lines (`SpecOplLine`) |
| C55 | `nodechain` | induction; refutation |
| C56 | `nodestore` | file-length invariant over set histories; refutations |
| C67, C68, C61_rest | PBF readers composed with the XML/OSC writers and readers; file concatenation | composition of C40/C27 lemmas, induction over blobs |
| C69, C70, C72 | end of iteration, panics and change blocks of the XML, OSC, PBF and changeset readers | induction over events; refutations |
| C71, C73 | string tables with arbitrary bytes, user ids at the 32-bit boundary, both PBF readers | case analysis on the decoder; induction over the columns; refutations |
| C74 | every encoding of PBF messages (SpecWire, from the protobuf rules and the field numbers) | commutation of field steps with different numbers, so a message is a fold per field number; induction over pieces |
| C75, C76 | the PBF readers over a source that delivers pieces, interruptions and errors (`PbfIo`) | simulation by the readers over whole bytes, induction over the loop |
| C77 | OPL strings against an inductive grammar of OPL texts (`SpecOpl`) | induction over the text; equivalence with the decoder |
| C78, C79 | the writers over an arbitrary sink type with any `write_all` that keeps its contract (`XmlWriteIo`), texts delivered in arbitrary pieces | simulation of the writers of C23-C26, call by call; exact condition for a repeated call |
| C80 | the generated `compute_size` and the writers that use the stored sizes, and the messages of the header block (`PbSize`) | varint length by logarithm; pieces compose (announced size, fields, bytes written); inversion of the parser for the header block (`SpecHeaderBlock`) |
| C81-C97 | nothing new: the exact extent (iff) of the properties that are false as stated | in the files of those properties and `PropsExact*`, `PropsXmlExact`, `PropsOplExact` |
| C98 | the builders of the String objects (`Builder`): options, setters, defaults | induction on the setter calls |
| C99, C100 | nothing new | monotonicity of both roundings, C04 for injectivity; C05 and the correctness of decimal reading |
| C101 | nothing new; SpecPbfAccept lists the conditions | each step of decoding succeeds iff its condition holds, induction over the columns, then framing (C33) |
| C102 | nothing new; SpecPbfBytes describes files byte by byte | inversion of the parser (`WireExact`): every successful parse is an encoding in the sense of SpecWire; induction over the bytes; uniqueness of the objects |
| C103 | the serde derives of the value types with serde_json's number, string and enum readers | each reader accepts a prefix iff the JSON parser of the specification reads a suitable value there; printing has no leading zeros |
| C104 | the state of the PBF readers after taking objects | induction over the frames: objects waiting are taken first, the next frame is read when none wait |
| C105 | Drop, into_inner and from_iter of the writers with unwinding and abort | a writer whose output did not fit is in a state in which close writes something, so that close fails again |
| C106 | nothing new: the exact extent (iff) of C43 | `PropsPbfRight`: a right group is accepted and is read as what it means (C101, uniqueness of what is read), and conversely; equal lengths split the concatenation |
| C107 | the tokenizer on a source that fails | induction over the objects: the events of a part of a document are those of the complete objects and no further end tag of an object; UTF-8 decoding of a cut text |
| C108 | quick-xml on bytes (`QuickXml.v`), values, the changeset readers on its events | a run of the tokenizer over each kind of markup; induction over the pieces of a text; C47 and C49 for the events |
| C109 | the same on a part of a text and on a source that fails | a measure (items delivered plus one for something begun) that never decreases shows that a markup yields nothing before its last byte; the readers on a list of parts followed by anything |
| C110 | the decompressing constructors (`Bz2.v`) over any decoder with the stated laws | a cut of the file is a cut of the data followed by an error, or falls between two streams; then C108, C109, C27, C60, C107 |
| C111 | XML and change readers composed with the writers (`XmlRead.v`, `XmlWrite.v`) | invariant of the parser's events (values are XML characters) carried to the objects (`XmlCopy.v`); then C27_exact, C28_exact; the text of an object does not change by reading it |
| C112 | the XML parser on characters (`XmlToken.v`) and the readers (`XmlRead.v`) against a grammar of documents (`SpecXmlDoc.v`, `SpecXmlRef.v`) | induction on derivations: each production drives the parser as it should (`XmlDoc.v`); converse by an invariant of every parser state: what was read is a document with open elements and a beginning of a markup (`XmlDocInv.v`); events of a tree split into elements (`XmlDocRead.v`) |
| C113 | the PBF readers with the source and the buffer that a panicking call leaves behind (`PbfPanic.v`); frames and beginnings of blocks as in the format | the pushed objects are compared with the decoders of `PbfRead.v` on every beginning of a block (prefix and attained); induction on the frames; termination by the length of the source |
| C114 | debug_coord (CoordDebug.v) | the text equals the documented Debug form of the f64 (f64 comparison with 1e-4), is a number text for i*10^-7, hence read back (C100); comparison with show_coord by the characters used |
| C115 | xml_next, osc_next on the documents of C112 | a scan of the tags (readings) is proved equal to the readers by induction on the events; a tree gives a reading that means nothing exactly if an object element is inside another |
| C116 | timestamp_cmp (Timestamp.v) | case analysis on the representations; texts are compared by an independently stated order (before); insertion sort for orderability |
| C117 | main of osmio-pbf-read-speed, separated_string (Speed.v) | induction on the objects with an arbitrary clock; the printed number by induction on groups of three digits, unique |
| C118 | the three PBF readers' states | invariant over call histories, on any source |
| C119 | derived order of OSMObjectType, pairs with ids (ObjOrder.v) | inversion; induction on sorted lists |
| C120 | derive(Debug) of the objects, main of osmio-osc-debug (DebugText.v, PropsDebugText.v) | the two layouts are prefix codes: induction on the printed values; injectivity of the numbers, coordinates and escapes; the words by comparison with a template |
| C121 | the XML readers on document trees (PropsAlike.v) | mutual induction on the relation between trees; the readings of the tag sequence depend on it only through tags, references, members and known attributes |
| C122 | all readers on the bytes of a file (PropsWrong.v) | the tokenizer's error state is absorbing; the announced size exceeds the file |
| C123 | readers, setters and writers together (PropsEdit.v) | setters preserve the conditions of the exact round trip theorems (C27, C28, C67, C111); C13 and C16 for the fields |
| C124 | changeset readers on bytes (PropsDumpAlike.v) | C108_text gives the value of each file; the value depends only on the known attributes and the tags |
| C125 | readers on two files put together (PropsConcat.v) | items of the concatenation up to text events; replies of appended items by induction; second root element is an error; C66_exact |
| C126 | repeated calls of the OPL reader (PropsConcat.v) | induction over the lines |
| C127 | the whole program osmio-changeset-tags-to-sqlite with its printed report (ToolMain.v, PropsToolFile.v) | C64, C65, C108-C110 put together; the tag reader never passes an error, and a failing source always gives one |
| C128 | the OPL reader on the beginning of a file (PropsOplCut.v) | pieces of a beginning of a text are the first pieces and a beginning of the next, applied to lines, fields, nodes and members; C53_exact, C66_exact |
| C129 | the node store's writer with its buffer, as a transition system (NodeStoreBuf.v, PropsStoreCrash.v) | invariant over all reachable states: the file is that of the calls before one call, with a beginning of what this call writes |
| C130 | a reader beside the buffered writer (NodeStoreBuf.v, PropsStoreRead.v) | the bytes of an id in every reachable state, from the invariant of C129; the number of returned calls never falls |
| C131 | Display and Debug of coordinates with a precision (CoordPrec.v, PropsCoordPrec.v); the tie rule of core is a parameter | error bound of the division (Flocq) against half a unit; the result is an integer, so the bound is exact |
| C64-C65 | the program `osmio-changeset-tags-to-sqlite` over a database that may fail at any call | induction over rows; counting lemmas |

## Files

* Vocabulary: `Base`, `Ints`, `Utf8`.
* Model: `Coord`, `CoordText`, `Timestamp`, `Obj`, `Json`, `XmlWrite`, `XmlWriteIo`,
  `XmlToken`, `XmlRead`, `PbWire`, `PbMsg`, `PbSize`, `PbfRead`, `PbfIo`, `PbfPanic`, `Changesets`, `Opl`,
  `NodeChain`, `NodeStore`, `NodeStoreBuf`, `TagsTool`, `ToolMain`, `DebugText`, `Builder`, `Serde`, `WriterEnd`, `QuickXml`, `Bz2`.
* Specification: `SpecNum`, `SpecCoord`, `SpecCal`, `SpecObj`, `SpecJson`,
  `SpecIter`, `SpecWriter`, `SpecXml`, `SpecXmlRead`, `SpecXmlText`, `SpecPbf`, `SpecPbfRead`, `SpecPbfAccept`, `SpecPbfBytes`, `SpecHeaderBlock`,
  `SpecChangeset`, `SpecDump`, `SpecDumpText`, `SpecWire`, `SpecOpl`, `SpecOplLine`, `SpecSink`, `SpecXmlDoc`, `SpecXmlRef`; `PbfEncode` and `PbfFrame` hold the reference PBF encoder.
* Lemmas: the `*Facts` files, `XmlRound`, `XmlReadBack`, `XmlTrunc`, `XmlCut`, `DumpValue`, `DumpWrite`, `DumpCut`, `DumpReplies`, `ChangesetCut`, `XmlExact`, `XmlDoc`, `XmlDocInv`, `XmlDocRead`, `XmlRef`, `XmlCopy`, `PbRange`,
  `PbfExact`, `PbfSound`, `PbfAccept`, `WireExact`, `ChangesetTags`.
* Statements: `Props*`.
* `Conformance`: the repository's own unit tests evaluated on the model. These are
  tests, not properties; they check the fidelity of the model to the code.

## Trusted base

1. **Coq's kernel** (8.16.1), including `vm_compute`, and the fidelity of the
   Gallina functions to the Rust text they cite (checked against the
   repository's unit tests in `Conformance.v`).
2. **Axioms**: only those of Coq's standard library, through Flocq's use of the
   reals. The list per theorem is at the end of this file; it is what
   `Print Assumptions` prints.
3. **Rust semantics**: `as` casts, integer overflow (both builds), `f64` and
   `f32` as IEEE 754 with round-to-nearest-even (Flocq), `str::parse` for
   integers and floats, `Display` of integers, shortest-representation
   `Display` of `f64` (C03_display_text proves that the modelled text is the
   shortest one that reads back, and the only one of its length), `Display` and `Debug` of `f64` with a precision (correctly
   rounded, ties in any way), `BufWriter` and `BufReader` (a seek passes on, or drops, what is in the buffer), `chars`, `from_utf8`, `split`,
   `Read::read_exact` (`PbfIo.read_n`). `Iterator::zip` stops at the shorter side; whether it
   has by then evaluated an element of the longer one (a member type, or for
   the Arc reader a key, may panic there) is an arbitrary function of the lengths
   (`Base.build`). Memory and stack are
   unbounded; `usize` counters of objects do not overflow.
4. **Other crates, modelled from their documented behaviour**:
   * xml-rs: `XmlToken.v`, an XML 1.0 pull parser. No DOCTYPE, no namespaces;
     whether white space in attribute values is normalised is a parameter
     (`attr_ws`). The events before a place that is not UTF-8, before the
     end of the input or before an I/O error are delivered, then an error.
   * quick-xml: for C47-C50 the event sequence is the input and an arbitrary function stands
     for attribute value normalisation. After the last event it returns Eof for
     ever. XML syntax errors appear as error items. For C108 and C109 events and
     values come from bytes (`QuickXml.v`): default configuration (end tags must fit,
     no trimming), a syntax or I/O error is followed by Eof, an end tag that does not
     fit is an error after which reading goes on, open elements at the end are not an error.
     DOCTYPE and encodings other than UTF-8 are not modelled.
   * chrono: RFC 3339 parsing and calendar conversion (`Timestamp.v`).
   * protobuf 3.7.2 runtime: `PbWire.v`. Whether over-long varints and
     out-of-range 32-bit varints are errors or truncated is a parameter
     (`pbrt`). Varints of up to ten bytes
     are read for every integer type. Groups (deprecated) are skipped. Limits on message size and
     recursion are not modelled.
   * flate2: `inflate` is an arbitrary partial function on bytes.
   * bzip2: except in C110 the XML and changeset readers are modelled on the
     decompressed bytes or events. In C110 the decoder is any function with the laws
     `decodes` of `Bz2.v`: streams one after the other are decoded one after the other;
     a file that ends inside a stream, or is empty, gives some data and then an I/O error.
   * serde and serde_json: the derived forms of newtype structs and enums, integer
     and enum reading, string escaping (string reading is that of the JSON
     specification), `Map` as a BTreeMap ordered by UTF-8 bytes
     (the `preserve_order` feature is not enabled).
   * core::fmt's Debug builders and the escapes of str (`DebugText.v`); which characters count
     as printable is arbitrary.
   * separator: `separated_string` of unsigned integers (`Speed.v`); the other texts the read
     speed program prints are arbitrary.
   * derive_builder: the builder of `Changeset` fails exactly when a field
     without default is missing.
   * SmolStr, Arc, Rc, Box, VecDeque, HashMap: sharing and layout are
     invisible. HashMap iteration order is an arbitrary permutation.
   * rusqlite/SQLite: `CREATE TABLE` outside a transaction is durable at once;
     inserts in a transaction become durable together at commit; any call may
     fail.
   * rayon-style parallelism is not used by the crate: the code has no threads,
     so there is no schedule to quantify over. Crash points are the sink
     failures of C26 and the tool failures of C64.
5. **I/O**: a source is the list of bytes it will yield, and reading fails only
   at its end; in C75 and C76 it delivers them in arbitrary pieces and may fail
   anywhere. A sink accepts some number of bytes (arbitrary) and then fails;
   in C78 and C79 it is any sink that keeps the contract of `write_all`.

## What is not modelled

* `src/lib.rs`: `version()`, error texts, `Debug`/`Display` of errors,
  the serde derives with formats other than JSON, opening files by name
  (`from_filename`, `read_pbf`, `read_xml` up to the bytes of the file). The readers' `inner` and
  `into_inner` are field projections in the PBF readers (C104) and `todo!()` in
  the XML and OSC readers.
* Opening the file in `src/bin/osmio-osc-debug.rs` and `src/bin/osmio-pbf-read-speed.rs`,
  progress output of the sqlite program.
* `src/stringpbf`, `src/arcpbf`: `decode_nodes` is `unimplemented!()` in the code
  and `Panic` in the model. PBF messages the readers never look into
  (bounding box fields of headers, changesets) are modelled as messages (C32),
  not interpreted.
* `src/obj_types/rc_types.rs` is the same text as `arc_types.rs` with `Rc` for
  `Arc` (and a `match` for an `and_then` in `RcNode::tag`); the model has one definition for both.
* `src/opl.rs`, `src/opl/mod.rs`, `src/nodechain.rs`, `src/nodestore.rs` are
  modelled although `src/lib.rs` does not declare them as modules: they are
  dead code, and the MANIFEST notes say so. `src/opl.rs` differs from
  `src/opl/mod.rs` only in writing `?` for `try!`.

## Findings

Each is a theorem with suffix `_refuted`.

* C06: NaN is accepted as a coordinate and becomes 0.
* C10: epoch numbers outside 32 bits are printed as another instant.
* C12: equality of timestamps is not transitive across representations.
* C15, C18, C63: on objects that repeat a key, `unset_tag` leaves a copy,
  conversion and JSON export disagree with `tag()`.
* C25, C27: `close` followed by drop (or `from_iter` followed by drop) writes a
  second root end tag, which the reader then panics on.
* C29: nodes without position hide everything after them when read back;
  string timestamps and control characters are written so that the file cannot
  be read.
* C34: a PBF file cut inside the four-byte size is taken to be complete.
* C37, C38, C39: granularities that are not multiples of 100 and date
  granularities other than 1000 are misread; ways and relations without the
  visible flag are deleted (String) or panic (Arc).
* C41: empty blobs, groups of several kinds stop or confuse the position reader.
* C44, C45: raw blobs and dense groups without tags make readers panic.
* C48: a truncated changeset dump makes `next()` loop for ever.
* C50: tags of a changeset without id are attributed to the one before; if there is none they stay
  behind and are returned with those of the next changeset if an attribute of that one, after its id,
  cannot be read (C50_all_ex).
* C115: an object element inside another one cuts the outer one short, and the outer end tag
  ends the iteration without an error.
* C116: comparison of timestamps goes round in circles when texts with time zones are compared with
  epoch numbers.
* C69: an XML element without id ends the iteration early, and the next call
  resumes behind it.
* C77: an OPL escape that is not closed swallows the rest of the string.
* C79: repeating a write that failed duplicates what the failed call had written.
* C76: a read error between two blobs looks like the end of the file, and the next call reads on behind it.
* C71: the Arc reader silently drops tags and members whose strings are not text.
* C73: user id 2^31-1 on a dense node stops both readers.
* C72: objects in `<delete>` blocks are not reported as deleted.
* C57, C58, C59, C61, C62, C65 and the dead modules (C51-C56, C66): see the
  notes in `MANIFEST.json`.
* C128: an OPL file that has lost its end gives, without an error, a last object with too few nodes or
  members, or with a shortened id, role or latitude.
* C129: when a program that fills a node store stops, the last position set may be missing although the call
  has returned, or be half old and half new.
* C130: a reader beside the writer of a node store may get a position of which one half is old and one half new.
* C131: with 14 digits or more a coordinate is shown with digits it does not have.

## Assumptions per theorem

Rest on `ClassicalDedekindReals.sig_not_dec`, `ClassicalDedekindReals.sig_forall_dec`, `FunctionalExtensionality.functional_extensionality_dep`, `Classical_Prop.classic` (all of Coq's standard library):

`C03_text_roundtrip`, `C03_display_text`, `C04_degrees_roundtrip`, `C05_exact`, `C05_bounds`, `C05_accepts_180`, `C05_infinite`, `C05_f32`, `C05_number_texts`, `C05_decimal_rounding`, `C05_from_str`, `C06_nan_rejected_refuted`, `C06_nan_becomes_zero`, `C07_set_lat_lon_atomic`, `C27_roundtrip_partial`, `C27_closed_twice_refuted`, `C27_late_timestamp_refuted`, `C27_exact`, `C28_roundtrip`, `C28_exact`, `C29_node_without_position_refuted`, `C29_unescaped_timestamp_refuted`, `C29_control_character_refuted`, `C29_spoils_refuted`, `C29_characters`, `C30_noise`, `C31_element`, `C31_file`, `C59_exact`, `C59_incomplete_element_refuted`, `C59_end_partial`, `C60_truncated_xml`, `C60_truncated_osc`, `C67_pbf_to_xml`, `C67_exact`, `C67_arc_exact`, `C69_each_call`, `C69_exact`, `C69_xml_partial`, `C69_xml_refuted`, `C70_panics_exactly`, `C70_iteration_ends`, `C72_exact`, `C72_blocks_partial`, `C72_delete_refuted`, `C27_exact`, `C28_exact`, `C69_each_call`, `C59_exact`, `C69_exact`, `C72_exact`, `C99_degrees`, `C99_conversion`, `C100_seven_decimals`, `C100_any_text`, `C107_xml`, `C107_osc`, `C110_xml`, `C110_xml_cut`, `C111_objects`, `C111_copy`, `C111_copy_osc`, `C111_same_text`, `C111_same_bytes_osc`, `C112_objects`, `C112_end`, `C112_layout`, `C113_xml`, `C114_text`, `C114_round_trip`, `C115_objects`, `C115_end`, `C115_complete_refuted`, `C120_same`, `C120_program`, `C120_equal_refuted`, `C120_words`, `C121_alike`, `C121_order_refuted`, `C122_xml`, `C122_bzip2`, `C122_kinds_refuted`, `C123_edit`, `C125_xml`, `C131_nearest`, `C131_exact`, `C131_read_exact`, `C131_read_near`, `C131_more_digits_refuted`.

Closed under the global context (no axioms):

`C01_escaping`, `C02_i64_roundtrip`, `C02_i32_roundtrip`, `C02_u32_roundtrip`, `C02_u64_roundtrip`, `C02_parse_i64_exact`, `C02_parse_i32_exact`, `C02_parse_u32_exact`, `C02_parse_u64_exact`, `C02_show_denotes`, `C07_set_none`, `C08_epoch_roundtrip`, `C09_calendar_unique`, `C09_format_correct`, `C09_parse_correct`, `C09_to_epoch_correct`, `C10_exact`, `C10_to_iso_refuted`, `C10_to_epoch_refuted`, `C10_faithful_partial`, `C10_outside_always_wrong`, `C11_order_chronological`, `C11_equality_chronological`, `C11_cmp_eq_agree`, `C12_exact`, `C12_transitive_refuted`, `C12_transitive_valid_refuted`, `C12_equivalence_partial`, `C13_tags_are_a_map_string`, `C13_tags_are_a_map_arc_rc`, `C14_tag_updates_local_string`, `C14_tag_updates_local_arc_rc`, `C15_exact`, `C15_unset_removes_refuted`, `C15_unset_removes_arc_refuted`, `C15_unset_removes_partial`, `C16_setters_string`, `C16_setters_arc_rc`, `C16_strip_metadata`, `C17_conversion_lossless`, `C18_exact`, `C18_conversion_tag_refuted`, `C18_conversion_tag_partial`, `C19_is_closed`, `C19_is_area`, `C20_json_string`, `C20_json_arc_rc`, `C21_names_roundtrip`, `C21_names_exact`, `C21_chars_exact`, `C22_filtered_iteration`, `C22_kinds`, `C23_open`, `C23_closed_refuses`, `C23_xml_output`, `C23_xml_results`, `C23_osc_results`, `C24_document`, `C24_well_formed`, `C25_exact`, `C25_document_partial`, `C25_well_formed_partial`, `C25_second_close_refuted`, `C25_from_iter_refuted`, `C26_xml`, `C26_osc`, `C27_as_read_equal`, `C32_messages_roundtrip`, `C32_parsed_roundtrip`, `C32_unknown_fields_ignored`, `C32_varints`, `C32_scalars`, `C33_data_blobs_in_order`, `C34_exact`, `C34_truncation_noticed_partial`, `C34_truncation_refuted`, `C35_dense_nodes`, `C36_ways_relations`, `C37_exact`, `C37_coordinates_partial`, `C37_coordinates_refuted`, `C38_exact`, `C38_timestamps_partial`, `C38_way_timestamps_refuted`, `C38_dense_timestamps_refuted`, `C39_exact`, `C39_visibility_partial`, `C39_visibility_refuted`, `C40_kind_filters`, `C40_nodes_ways_relations`, `C41_exact`, `C41_positions_partial`, `C41_positions_refuted`, `C42_files`, `C42_readers_agree`, `C43_supported_files_partial`, `C43_write_read`, `C43_block_exact`, `C43_exact`, `C44_exact`, `C44_raw_blobs_partial`, `C44_raw_blobs_refuted`, `C45_exact`, `C45_tagless_dense_partial`, `C45_tagless_dense_refuted`, `C46_bad_indexes_stop`, `C47_every_changeset`, `C47_local_part`, `C47_tag_queries`, `C48_terminates_partial`, `C48_terminates_refuted`, `C48_truncation_refuted`, `C48_tag_reader_ends`, `C48_exact`, `C49_tag_reader_agrees`, `C49_same_changesets`, `C50_own_tags_partial`, `C50_missing_id_refuted`, `C50_bad_id_refuted`, `C50_exact`, `C50_all`, `C51_string_partial`, `C51_percent_refuted`, `C51_exact`, `C51_text`, `C52_tags_partial`, `C52_way_nodes_partial`, `C52_members_partial`, `C52_empty_refuted`, `C52_role_refuted`, `C52_tags_exact`, `C52_way_nodes_exact`, `C52_members_exact`, `C52_texts`, `C53_node_partial`, `C53_way_partial`, `C53_relation_partial`, `C53_user_refuted`, `C53_exact`, `C54_no_panic_partial`, `C54_short_refuted`, `C54_tag_refuted`, `C54_exact`, `C55_chain_partial`, `C55_empty`, `C55_decrement_refuted`, `C55_return_refuted`, `C55_exact`, `C56_exact`, `C56_map_partial`, `C56_beyond_refuted`, `C56_reserved_refuted`, `C56_any_id`, `C56_alias_refuted`, `C57_exact`, `C57_arc_equality_observational_refuted`, `C57_equality_observational_partial`, `C58_exact`, `C58_set_header_refuted`, `C58_set_header_partial`, `C61_exact`, `C61_rest_partial`, `C61_kind_iterator_refuted`, `C62_exact`, `C62_columns_partial`, `C62_member_columns_refuted`, `C63_exact`, `C63_json_agrees_partial`, `C63_json_agrees_arc_rc_partial`, `C63_json_agrees_refuted`, `C64_all_or_nothing`, `C64_existing`, `C64_success`, `C64_file`, `C65_exact`, `C65_report`, `C65_changesets_partial`, `C65_repeated_refuted`, `C66_file_partial`, `C66_bad_line_refuted`, `C66_exact`, `C66_lines`, `C66_trimmed`, `C66_not_text_refuted`, `C68_concatenated`, `C68_first_bad`, `C69_changesets`, `C69_pbf`, `C71_exact`, `C71_string`, `C71_arc_partial`, `C71_arc_refuted`, `C73_exact`, `C73_largest_refuted`, `C73_others_partial`, `C74_any_encoding`, `C74_unambiguous`, `C74_supported_files`, `C74_encoding_irrelevant`, `C75_whole`, `C75_pieces_irrelevant`, `C76_error_as_end`, `C76_inside_partial`, `C76_between_refuted`, `C77_texts_decoded`, `C77_rejects_partial`, `C77_open_refuted`, `C78_std_loop`, `C78_xml`, `C78_osc`, `C78_xml_first_error`, `C78_osc_first_error`, `C79_xml_refuted`, `C79_osc_refuted`, `C79_xml_exact`, `C79_osc_exact`, `C79_xml_each_call`, `C79_osc_each_call`, `C80_header_block`, `C80_required`, `C80_written_size`, `C80_same_bytes`, `C10_exact`, `C12_exact`, `C15_exact`, `C18_exact`, `C63_exact`, `C65_exact`, `C25_exact`, `C58_exact`, `C34_exact`, `C76_error_as_end`, `C37_exact`, `C38_exact`, `C39_exact`, `C41_exact`, `C44_exact`, `C45_exact`, `C62_exact`, `C73_exact`, `C71_exact`, `C61_exact`, `C48_exact`, `C50_exact`, `C50_all`, `C57_exact`, `C79_xml_exact`, `C79_osc_exact`, `C51_exact`, `C52_tags_exact`, `C52_way_nodes_exact`, `C52_members_exact`, `C56_exact`, `C98_built`, `C98_order`, `C101_string`, `C101_arc`, `C101_positions`, `C101_files`, `C102_messages`, `C102_frames`, `C102_files`, `C102_objects_determined`, `C103_coordinate_exact`, `C103_timestamp_exact`, `C103_object_type_exact`, `C103_written`, `C103_round_trip`, `C104_position`, `C104_any_source`, `C105_drop`, `C105_from_iter`, `C43_block_exact`, `C43_exact`, `C107_number`, `C108_text`, `C108_tag_reader`, `C108_values`, `C108_dump`, `C109_cut`, `C109_failing`, `C109_tag_reader`, `C109_dump`, `C110_changesets`, `C110_changesets_cut`, `C110_changesets_boundary`, `C110_tag_reader`, `C112_wellformed`, `C112_unique`, `C113_determined`, `C113_string`, `C113_positions`, `C113_arc`, `C113_ends`, `C113_tail`, `C113_same`, `C114_display`, `C116_total`, `C116_exact`, `C116_sortable`, `C116_usual`, `C116_cycle_refuted`, `C117_separated`, `C117_report`, `C118_kept`, `C118_kept_others`, `C119_total`, `C119_file_order`, `C119_names_refuted`, `C122_pbf`, `C124_alike`, `C124_tag_reader`, `C125_changesets`, `C125_tag_reader`, `C125_opl`, `C126_each_line`, `C127_any`, `C127_export`, `C127_dump`, `C127_cut`, `C127_boundary`, `C128_line`, `C128_file`, `C128_last_break`, `C128_complete_refuted`, `C129_crash`, `C129_dropped`, `C129_returned_refuted`, `C129_torn_refuted`, `C130_settled`, `C130_never_set`, `C130_own_bytes`, `C130_halves_refuted`.
