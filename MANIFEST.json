{
 "claims": [
  {
   "property": "C01",
   "status": "proved",
   "theorems": [
    "C01_escaping"
   ],
   "note": ""
  },
  {
   "property": "C02",
   "status": "proved",
   "theorems": [
    "C02_i64_roundtrip",
    "C02_i32_roundtrip",
    "C02_u32_roundtrip",
    "C02_u64_roundtrip",
    "C02_parse_i64_exact",
    "C02_parse_i32_exact",
    "C02_parse_u32_exact",
    "C02_parse_u64_exact",
    "C02_show_denotes"
   ],
   "note": ""
  },
  {
   "property": "C03",
   "status": "proved",
   "theorems": [
    "C03_text_roundtrip",
    "C03_display_text"
   ],
   "note": ""
  },
  {
   "property": "C04",
   "status": "proved",
   "theorems": [
    "C04_degrees_roundtrip"
   ],
   "note": ""
  },
  {
   "property": "C05",
   "status": "proved",
   "theorems": [
    "C05_exact",
    "C05_bounds",
    "C05_accepts_180",
    "C05_infinite",
    "C05_f32",
    "C05_number_texts",
    "C05_decimal_rounding",
    "C05_from_str"
   ],
   "note": ""
  },
  {
   "property": "C06",
   "status": "partial",
   "theorems": [
    "C06_nan_rejected_refuted",
    "C06_nan_becomes_zero"
   ],
   "note": "False of the code as stated: NaN (and the texts that parse to NaN) become coordinate 0; refuted by witness, with the exact behaviour proved."
  },
  {
   "property": "C07",
   "status": "proved",
   "theorems": [
    "C07_set_lat_lon_atomic",
    "C07_set_none"
   ],
   "note": ""
  },
  {
   "property": "C08",
   "status": "proved",
   "theorems": [
    "C08_epoch_roundtrip"
   ],
   "note": ""
  },
  {
   "property": "C09",
   "status": "proved",
   "theorems": [
    "C09_calendar_unique",
    "C09_format_correct",
    "C09_parse_correct",
    "C09_to_epoch_correct"
   ],
   "note": ""
  },
  {
   "property": "C10",
   "status": "partial",
   "theorems": [
    "C10_exact",
    "C10_to_iso_refuted",
    "C10_to_epoch_refuted",
    "C10_faithful_partial",
    "C10_outside_always_wrong"
   ],
   "note": "False of the code as stated: refuted by witnesses; the partial theorem gives the exact range in which it holds. C10_exact: the exact set of timestamps (iff)."
  },
  {
   "property": "C11",
   "status": "proved",
   "theorems": [
    "C11_order_chronological",
    "C11_equality_chronological",
    "C11_cmp_eq_agree"
   ],
   "note": ""
  },
  {
   "property": "C12",
   "status": "partial",
   "theorems": [
    "C12_exact",
    "C12_transitive_refuted",
    "C12_transitive_valid_refuted",
    "C12_equivalence_partial"
   ],
   "note": "False of the code as stated (mixed representations); refuted, with the partial theorem covering timestamps whose ISO text is in canonical form. C12_exact: exactly when comparison agrees with the instants (iff)."
  },
  {
   "property": "C13",
   "status": "proved",
   "theorems": [
    "C13_tags_are_a_map_string",
    "C13_tags_are_a_map_arc_rc"
   ],
   "note": ""
  },
  {
   "property": "C14",
   "status": "proved",
   "theorems": [
    "C14_tag_updates_local_string",
    "C14_tag_updates_local_arc_rc"
   ],
   "note": ""
  },
  {
   "property": "C15",
   "status": "partial",
   "theorems": [
    "C15_exact",
    "C15_unset_removes_refuted",
    "C15_unset_removes_arc_refuted",
    "C15_unset_removes_partial"
   ],
   "note": "False for objects that repeat a key; proved for distinct keys. C15_exact: unsetting a key removes it iff the key occurs at most once."
  },
  {
   "property": "C16",
   "status": "proved",
   "theorems": [
    "C16_setters_string",
    "C16_setters_arc_rc",
    "C16_strip_metadata"
   ],
   "note": ""
  },
  {
   "property": "C17",
   "status": "proved",
   "theorems": [
    "C17_conversion_lossless"
   ],
   "note": ""
  },
  {
   "property": "C18",
   "status": "partial",
   "theorems": [
    "C18_exact",
    "C18_conversion_tag_refuted",
    "C18_conversion_tag_partial"
   ],
   "note": "False for objects that repeat a key; the partial theorem says exactly which value is found. C18_exact: iff all values of the key are the same."
  },
  {
   "property": "C19",
   "status": "proved",
   "theorems": [
    "C19_is_closed",
    "C19_is_area"
   ],
   "note": ""
  },
  {
   "property": "C20",
   "status": "proved",
   "theorems": [
    "C20_json_string",
    "C20_json_arc_rc"
   ],
   "note": ""
  },
  {
   "property": "C21",
   "status": "proved",
   "theorems": [
    "C21_names_roundtrip",
    "C21_names_exact",
    "C21_chars_exact"
   ],
   "note": ""
  },
  {
   "property": "C22",
   "status": "proved",
   "theorems": [
    "C22_filtered_iteration",
    "C22_kinds"
   ],
   "note": ""
  },
  {
   "property": "C23",
   "status": "proved",
   "theorems": [
    "C23_open",
    "C23_closed_refuses",
    "C23_xml_output",
    "C23_xml_results",
    "C23_osc_results"
   ],
   "note": ""
  },
  {
   "property": "C24",
   "status": "proved",
   "theorems": [
    "C24_document",
    "C24_well_formed"
   ],
   "note": ""
  },
  {
   "property": "C25",
   "status": "partial",
   "theorems": [
    "C25_exact",
    "C25_document_partial",
    "C25_well_formed_partial",
    "C25_second_close_refuted",
    "C25_from_iter_refuted"
   ],
   "note": "False with a second close (explicit close followed by drop, or from_iter followed by drop): a second root end tag is written; proved for histories with exactly one close. C25_exact: the output is the document iff there was exactly one close."
  },
  {
   "property": "C26",
   "status": "proved",
   "theorems": [
    "C26_xml",
    "C26_osc"
   ],
   "note": ""
  },
  {
   "property": "C27",
   "status": "partial",
   "theorems": [
    "C27_as_read_equal",
    "C27_roundtrip_partial",
    "C27_closed_twice_refuted",
    "C27_late_timestamp_refuted",
    "C27_exact"
   ],
   "note": "False after an explicit close followed by drop (the reader panics after the last object); proved for histories with one close. The witness for late timestamps shows why the range restriction in the statement is needed. C27_exact: with one close, everything comes back iff every node has a position, all texts are ones XML can carry and no timestamp text needs escaping."
  },
  {
   "property": "C28",
   "status": "proved",
   "theorems": [
    "C28_roundtrip",
    "C28_exact"
   ],
   "note": "C28_exact: everything comes back iff every object is one that can come back (the converse of C28_roundtrip)."
  },
  {
   "property": "C29",
   "status": "partial",
   "theorems": [
    "C29_node_without_position_refuted",
    "C29_unescaped_timestamp_refuted",
    "C29_control_character_refuted",
    "C29_spoils_refuted",
    "C29_characters"
   ],
   "note": "False of the code: nodes without position hide everything after them, unescaped timestamps and control characters make the file unreadable. C29_spoils_refuted: every object that cannot come back spoils the file, wherever it stands; with C27_exact and C28_exact this is the exact extent (iff)."
  },
  {
   "property": "C30",
   "status": "proved",
   "theorems": [
    "C30_noise"
   ],
   "note": ""
  },
  {
   "property": "C31",
   "status": "proved",
   "theorems": [
    "C31_element",
    "C31_file"
   ],
   "note": ""
  },
  {
   "property": "C32",
   "status": "proved",
   "theorems": [
    "C32_messages_roundtrip",
    "C32_parsed_roundtrip",
    "C32_unknown_fields_ignored",
    "C32_varints",
    "C32_scalars"
   ],
   "note": ""
  },
  {
   "property": "C33",
   "status": "proved",
   "theorems": [
    "C33_data_blobs_in_order"
   ],
   "note": ""
  },
  {
   "property": "C34",
   "status": "partial",
   "theorems": [
    "C34_exact",
    "C34_truncation_noticed_partial",
    "C34_truncation_refuted"
   ],
   "note": "False when the cut falls inside the four-byte size before a blob (end of file is reported); proved for every other cut. C34_exact: the cut is noticed iff at least the four bytes of the size are left of the blob."
  },
  {
   "property": "C35",
   "status": "proved",
   "theorems": [
    "C35_dense_nodes"
   ],
   "note": ""
  },
  {
   "property": "C36",
   "status": "proved",
   "theorems": [
    "C36_ways_relations"
   ],
   "note": ""
  },
  {
   "property": "C37",
   "status": "partial",
   "theorems": [
    "C37_exact",
    "C37_coordinates_partial",
    "C37_coordinates_refuted"
   ],
   "note": "False for granularities that are not multiples of 100 nanodegrees (refuted for every one of them); proved otherwise, for coordinates that fit 32 bits. C37_exact: which coordinates come out as prescribed, for every granularity and offset (iff)."
  },
  {
   "property": "C38",
   "status": "partial",
   "theorems": [
    "C38_exact",
    "C38_timestamps_partial",
    "C38_way_timestamps_refuted",
    "C38_dense_timestamps_refuted"
   ],
   "note": "False for date granularities other than 1000 ms: ignored for ways and relations, compounded from node to node for dense nodes; proved for 1000. C38_exact: every timestamp of every accepted block, and when it is the prescribed one (iff)."
  },
  {
   "property": "C39",
   "status": "partial",
   "theorems": [
    "C39_exact",
    "C39_visibility_partial",
    "C39_visibility_refuted"
   ],
   "note": "False for ways and relations without the flag: deleted (String), panic (Arc). Proved for dense nodes and for objects that carry the flag. C39_exact: the String reader follows the format iff every way and relation of the block carries the flag, which is also exactly when the Arc reader accepts it (given that no spare member type it looks at is unknown)."
  },
  {
   "property": "C40",
   "status": "proved",
   "theorems": [
    "C40_kind_filters",
    "C40_nodes_ways_relations"
   ],
   "note": ""
  },
  {
   "property": "C41",
   "status": "partial",
   "theorems": [
    "C41_exact",
    "C41_positions_partial",
    "C41_positions_refuted"
   ],
   "note": "False for files with empty blobs, empty groups or groups of several kinds; proved for the others. C41_exact: for every file the full reader reads, the positions agree iff all blobs and groups are of the stated shape."
  },
  {
   "property": "C42",
   "status": "proved",
   "theorems": [
    "C42_files",
    "C42_readers_agree"
   ],
   "note": ""
  },
  {
   "property": "C43",
   "status": "partial",
   "theorems": [
    "C43_supported_files_partial",
    "C43_write_read",
    "C43_block_exact",
    "C43_exact"
   ],
   "note": "False for some files that follow the format (C37, C38, C39, C44, C45). C43_supported_files_partial: every file in the part of the format the readers support (SpecPbf); C43_write_read: a concrete writer; C43_exact and C43_block_exact: exactly which files and blocks are read as what they mean (C106)."
  },
  {
   "property": "C44",
   "status": "partial",
   "theorems": [
    "C44_exact",
    "C44_raw_blobs_partial",
    "C44_raw_blobs_refuted"
   ],
   "note": "False for the String and position readers, which panic on every raw blob; proved for the Arc reader. C44_exact: String and position reader see the same iff there is no data or the data would stop them anyway."
  },
  {
   "property": "C45",
   "status": "partial",
   "theorems": [
    "C45_exact",
    "C45_tagless_dense_partial",
    "C45_tagless_dense_refuted"
   ],
   "note": "False for the String reader, which panics; proved for the Arc reader. C45_exact: the String reader sees the same iff the group has no nodes, nodes are not asked for or the group would stop it anyway."
  },
  {
   "property": "C46",
   "status": "proved",
   "theorems": [
    "C46_bad_indexes_stop"
   ],
   "note": ""
  },
  {
   "property": "C47",
   "status": "proved",
   "theorems": [
    "C47_every_changeset",
    "C47_local_part",
    "C47_tag_queries"
   ],
   "note": ""
  },
  {
   "property": "C48",
   "status": "partial",
   "theorems": [
    "C48_terminates_partial",
    "C48_terminates_refuted",
    "C48_truncation_refuted",
    "C48_tag_reader_ends",
    "C48_exact"
   ],
   "note": "As stated it is false of ChangesetReader: on an input that ends inside a changeset (for instance any cut of a file between the start and the end of a changeset with content) next() loops for ever (C48_terminates_refuted, C48_truncation_refuted). C48_terminates_partial: it returns exactly on the inputs that do not end inside a changeset. The tag reader always ends (C48_tag_reader_ends)."
  },
  {
   "property": "C49",
   "status": "proved",
   "theorems": [
    "C49_tag_reader_agrees",
    "C49_same_changesets"
   ],
   "note": ""
  },
  {
   "property": "C50",
   "status": "partial",
   "theorems": [
    "C50_own_tags_partial",
    "C50_missing_id_refuted",
    "C50_bad_id_refuted",
    "C50_exact",
    "C50_all"
   ],
   "note": "As stated it is false: a changeset without id, or with one that is not a number, has its tags returned under the id of the changeset before (C50_missing_id_refuted, C50_bad_id_refuted). C50_own_tags_partial: exact replies for all files whose changesets with content all have an id. C50_exact: all replies for every file of well-formed pieces, and exactly when all tags come under their own id (iff). C50_all: the same also with attributes that cannot be read and with tags outside changesets (tags that no reply returned can then come with those of a later changeset)."
  },
  {
   "property": "C51",
   "status": "partial",
   "theorems": [
    "C51_string_partial",
    "C51_percent_refuted",
    "C51_exact",
    "C51_text"
   ],
   "note": "False for strings with a percent sign, which is not encoded; proved for all others. The module is not part of the crate. C51_exact: a string survives iff it has no percent sign."
  },
  {
   "property": "C52",
   "status": "partial",
   "theorems": [
    "C52_tags_partial",
    "C52_way_nodes_partial",
    "C52_members_partial",
    "C52_empty_refuted",
    "C52_role_refuted",
    "C52_tags_exact",
    "C52_way_nodes_exact",
    "C52_members_exact",
    "C52_texts"
   ],
   "note": "False for empty node and member lists, keys or values with '%' and roles with ','; proved otherwise. The module is not part of the crate. C52_*_exact: exactly which lists survive (iff)."
  },
  {
   "property": "C53",
   "status": "partial",
   "theorems": [
    "C53_node_partial",
    "C53_way_partial",
    "C53_relation_partial",
    "C53_user_refuted",
    "C53_exact"
   ],
   "note": "False for encoded users (and roles), which are not decoded; proved for lines that carry the texts themselves. C53_exact says for every line which object, if any, it is decoded to (SpecOplLine). Coordinates are whatever an arbitrary parser makes of their text. The module is not part of the crate."
  },
  {
   "property": "C54",
   "status": "partial",
   "theorems": [
    "C54_no_panic_partial",
    "C54_short_refuted",
    "C54_tag_refuted",
    "C54_exact"
   ],
   "note": "False: missing fields, a tag without '=' and a member without '@' panic; proved for lines without these. C54_exact says exactly which lines panic. The module is not part of the crate."
  },
  {
   "property": "C55",
   "status": "partial",
   "theorems": [
    "C55_chain_partial",
    "C55_empty",
    "C55_decrement_refuted",
    "C55_return_refuted",
    "C55_exact"
   ],
   "note": "False of the code: an id one less than the one before makes decoding panic, and a difference after a return to the first id is added to the wrong id; proved for all chains without these. C55_exact says exactly which chains without an immediate repetition come back. (C55_lucky: with repetitions, errors can cancel.) The module is not part of the crate."
  },
  {
   "property": "C56",
   "status": "partial",
   "theorems": [
    "C56_exact",
    "C56_map_partial",
    "C56_beyond_refuted",
    "C56_reserved_refuted",
    "C56_any_id",
    "C56_alias_refuted"
   ],
   "note": "False beyond the highest id set (get panics) and for the reserved coordinate; proved otherwise. The module is not part of the crate. C56_exact: get answers like a map iff the id is not beyond the highest id set and the position is not reserved. C56_any_id: for any u64 id, a build with overflow checks answers as for a natural number, one without answers as for the id modulo 2^61; C56_alias_refuted: there two different ids can share one position."
  },
  {
   "property": "C57",
   "status": "partial",
   "theorems": [
    "C57_exact",
    "C57_arc_equality_observational_refuted",
    "C57_equality_observational_partial"
   ],
   "note": "False for Arc/Rc nodes (None versus empty tag list). C57_exact: exactly which objects are equal (iff)."
  },
  {
   "property": "C58",
   "status": "partial",
   "theorems": [
    "C58_exact",
    "C58_set_header_refuted",
    "C58_set_header_partial"
   ],
   "note": "False when the sink fails inside the header; proved for sinks that have not failed. C58_exact: on a sink of any capacity, exactly when set_header is still accepted, and that the property holds iff the sink has room for the opening of the document (or none at all)."
  },
  {
   "property": "C59",
   "status": "partial",
   "theorems": [
    "C59_exact",
    "C59_incomplete_element_refuted",
    "C59_end_partial"
   ],
   "note": "False of the code: an element without id (or a node without lat/lon) ends the iteration; proved for files whose elements are complete. C59_exact: a loop sees the objects before the first incomplete element, so all of them iff no element is incomplete."
  },
  {
   "property": "C60",
   "status": "proved",
   "theorems": [
    "C60_truncated_xml",
    "C60_truncated_osc"
   ],
   "note": "Exactly the objects whose text lies within the prefix are returned, for every byte position including the middle of a character."
  },
  {
   "property": "C61",
   "status": "partial",
   "theorems": [
    "C61_exact",
    "C61_rest_partial",
    "C61_kind_iterator_refuted"
   ],
   "note": "False: the filter set by nodes(), ways() or relations() stays in force. C61_exact: everything is yielded iff all that is still to be read is of the kind."
  },
  {
   "property": "C62",
   "status": "partial",
   "theorems": [
    "C62_exact",
    "C62_columns_partial",
    "C62_member_columns_refuted"
   ],
   "note": "False for member columns of a relation (silently truncated); proved for keys and values with the String reader. C62_exact: what every accepted block yields: columns cut to the shortest, keys and values of equal length for the String reader."
  },
  {
   "property": "C63",
   "status": "partial",
   "theorems": [
    "C63_exact",
    "C63_json_agrees_partial",
    "C63_json_agrees_arc_rc_partial",
    "C63_json_agrees_refuted"
   ],
   "note": "False for objects that repeat a key with different values (tag() finds the first, the JSON has the last); proved for distinct keys. C63_exact: iff all values of the key are the same."
  },
  {
   "property": "C64",
   "status": "proved",
   "theorems": [
    "C64_all_or_nothing",
    "C64_existing",
    "C64_success",
    "C64_file"
   ],
   "note": "SQLite is modelled by its transaction guarantees. The JSON text is stored as a blob, because the program binds a byte vector."
  },
  {
   "property": "C65",
   "status": "partial",
   "theorems": [
    "C65_exact",
    "C65_report",
    "C65_changesets_partial",
    "C65_repeated_refuted"
   ],
   "note": "False when a changeset repeats a key, which is then counted twice (a percentage can exceed 100); C65_report gives the exact meaning of every number, C65_changesets_partial shows it is the number of changesets when no key is repeated. C65_exact: the count is the number of changesets iff no changeset repeats the key."
  },
  {
   "property": "C66",
   "status": "partial",
   "theorems": [
    "C66_file_partial",
    "C66_bad_line_refuted",
    "C66_exact",
    "C66_lines",
    "C66_trimmed",
    "C66_not_text_refuted"
   ],
   "note": "False: a blank or undecodable line silently ends the iteration; proved for files of good lines. C66_exact says what every sequence of bytes is read as. The module is not part of the crate."
  },
  {
   "property": "C67",
   "status": "proved",
   "theorems": [
    "C67_pbf_to_xml",
    "C67_exact",
    "C67_arc_exact"
   ],
   "note": ""
  },
  {
   "property": "C68",
   "status": "proved",
   "theorems": [
    "C68_concatenated",
    "C68_first_bad"
   ],
   "note": ""
  },
  {
   "property": "C69",
   "status": "partial",
   "theorems": [
    "C69_changesets",
    "C69_each_call",
    "C69_exact",
    "C69_pbf",
    "C69_xml_partial",
    "C69_xml_refuted"
   ],
   "note": "True of the PBF and changeset readers and of XML files whose objects are all complete; false for XML and change files with an element that lacks an id: next() returns None there and later calls return the objects after it. C69_each_call: the replies of any number of calls on any file; C69_exact: the end is final iff incomplete elements stand only at the end."
  },
  {
   "property": "C70",
   "status": "proved",
   "theorems": [
    "C70_panics_exactly",
    "C70_iteration_ends"
   ],
   "note": ""
  },
  {
   "property": "C71",
   "status": "partial",
   "theorems": [
    "C71_exact",
    "C71_string",
    "C71_arc_partial",
    "C71_arc_refuted"
   ],
   "note": "Proved for the String reader (a block with a non-text string yields no objects). False for the Arc reader, which drops tags and members whose strings are not text (C71_arc_refuted); C71_arc_partial says exactly which it keeps. C71_exact: the Arc reader keeps all tags of an object iff their strings are text, all members iff their roles are."
  },
  {
   "property": "C72",
   "status": "partial",
   "theorems": [
    "C72_exact",
    "C72_blocks_partial",
    "C72_delete_refuted"
   ],
   "note": "The sequence of objects is proved; the second half is false: an object in a delete block without visible=\"false\" is reported as not deleted (the reader ignores block elements). C72_exact: an object in a delete block is reported as deleted iff its element says visible=\"false\"."
  },
  {
   "property": "C73",
   "status": "partial",
   "theorems": [
    "C73_exact",
    "C73_largest_refuted",
    "C73_others_partial"
   ],
   "note": "False for the largest id, 2^31-1, on nodes of dense groups (an assertion stops both readers); proved for all smaller ids on dense nodes and for all ids on ways. C73_exact: take any accepted block and change its user ids: it is accepted, with the same objects, iff no node of a dense group got the id 2^31-1."
  },
  {
   "property": "C74",
   "status": "proved",
   "theorems": [
    "C74_any_encoding",
    "C74_unambiguous",
    "C74_supported_files",
    "C74_encoding_irrelevant"
   ],
   "note": ""
  },
  {
   "property": "C75",
   "status": "proved",
   "theorems": [
    "C75_whole",
    "C75_pieces_irrelevant"
   ],
   "note": ""
  },
  {
   "property": "C76",
   "status": "partial",
   "theorems": [
    "C76_error_as_end",
    "C76_inside_partial",
    "C76_between_refuted"
   ],
   "note": "False: an error between two blobs, or inside the four-byte size before a blob, ends the iteration like a complete file, and the next call reads on behind the error (C76_between_refuted). An error further inside a blob stops the readers with a panic (C76_inside_partial). C76_error_as_end says exactly what happens: an error is treated as the end of the file at that place."
  },
  {
   "property": "C77",
   "status": "partial",
   "theorems": [
    "C77_texts_decoded",
    "C77_rejects_partial",
    "C77_open_refuted"
   ],
   "note": "Well-formed texts are decoded (C77_texts_decoded). An escape that is never closed is accepted and the rest of the text is lost (C77_open_refuted); nothing else malformed is accepted (C77_rejects_partial)."
  },
  {
   "property": "C78",
   "status": "proved",
   "theorems": [
    "C78_std_loop",
    "C78_xml",
    "C78_osc",
    "C78_xml_first_error",
    "C78_osc_first_error"
   ],
   "note": "Generalises C26 to every destination that keeps the contract of write_all; C78_std_loop shows that std's loop over write keeps it whatever write answers."
  },
  {
   "property": "C79",
   "status": "partial",
   "theorems": [
    "C79_xml_refuted",
    "C79_osc_refuted",
    "C79_xml_exact",
    "C79_osc_exact",
    "C79_xml_each_call",
    "C79_osc_each_call"
   ],
   "note": "False: what the failed call had written stays in the output (C79_xml_refuted, C79_osc_refuted). Exactly when the repetition works: when the failed call had written nothing, or exactly the opening of the document (C79_xml_exact, C79_osc_exact). Every call writes its whole text or reports an error (C79_xml_each_call, C79_osc_each_call)."
  },
  {
   "property": "C80",
   "status": "proved",
   "theorems": [
    "C80_header_block",
    "C80_required",
    "C80_written_size",
    "C80_same_bytes"
   ],
   "note": "C80_same_bytes connects the writers with stored sizes to the serialised forms used in the other theorems. C80_header_block is for the variant of the protobuf library that rejects numbers too large for their field (the parameters of PbWire all true); other messages: C102_messages. C80_required: refused exactly when a required field is missing."
  },
  {
   "property": "C81",
   "status": "proved",
   "theorems": [
    "C10_exact",
    "C12_exact"
   ],
   "note": "The exact extent of C10, C12, which as stated are false of the code."
  },
  {
   "property": "C82",
   "status": "proved",
   "theorems": [
    "C15_exact",
    "C18_exact",
    "C63_exact",
    "C65_exact"
   ],
   "note": "The exact extent of C15, C18, C63, C65, which as stated are false of the code."
  },
  {
   "property": "C83",
   "status": "proved",
   "theorems": [
    "C25_exact",
    "C58_exact"
   ],
   "note": "The exact extent of C25, C58, which as stated are false of the code."
  },
  {
   "property": "C84",
   "status": "proved",
   "theorems": [
    "C27_exact",
    "C28_exact"
   ],
   "note": "The exact extent of C27 and C29 (false as stated) and of C28."
  },
  {
   "property": "C85",
   "status": "proved",
   "theorems": [
    "C69_each_call",
    "C59_exact",
    "C69_exact"
   ],
   "note": "The exact extent of C59, C69, which as stated are false of the code."
  },
  {
   "property": "C86",
   "status": "proved",
   "theorems": [
    "C34_exact",
    "C76_error_as_end"
   ],
   "note": "The exact extent of C34, C76, which as stated are false of the code."
  },
  {
   "property": "C87",
   "status": "proved",
   "theorems": [
    "C37_exact",
    "C38_exact"
   ],
   "note": "The exact extent of C37, C38, which as stated are false of the code."
  },
  {
   "property": "C88",
   "status": "proved",
   "theorems": [
    "C39_exact"
   ],
   "note": "The exact extent of C39, which as stated is false of the code."
  },
  {
   "property": "C89",
   "status": "proved",
   "theorems": [
    "C41_exact"
   ],
   "note": "The exact extent of C41, which as stated is false of the code."
  },
  {
   "property": "C90",
   "status": "proved",
   "theorems": [
    "C44_exact",
    "C45_exact"
   ],
   "note": "The exact extent of C44, C45, which as stated are false of the code."
  },
  {
   "property": "C91",
   "status": "proved",
   "theorems": [
    "C62_exact",
    "C73_exact",
    "C71_exact"
   ],
   "note": "The exact extent of C62, C73, C71, which as stated are false of the code."
  },
  {
   "property": "C92",
   "status": "proved",
   "theorems": [
    "C61_exact"
   ],
   "note": "The exact extent of C61, which as stated is false of the code."
  },
  {
   "property": "C93",
   "status": "proved",
   "theorems": [
    "C48_exact",
    "C50_exact",
    "C50_all"
   ],
   "note": "The exact extent of C48, C50, which as stated are false of the code."
  },
  {
   "property": "C94",
   "status": "proved",
   "theorems": [
    "C57_exact"
   ],
   "note": "The exact extent of C57, which as stated is false of the code."
  },
  {
   "property": "C95",
   "status": "proved",
   "theorems": [
    "C72_exact"
   ],
   "note": "The exact extent of C72, which as stated is false of the code."
  },
  {
   "property": "C96",
   "status": "proved",
   "theorems": [
    "C79_xml_exact",
    "C79_osc_exact"
   ],
   "note": "The exact extent of C79, which as stated is false of the code."
  },
  {
   "property": "C97",
   "status": "proved",
   "theorems": [
    "C51_exact",
    "C52_tags_exact",
    "C52_way_nodes_exact",
    "C52_members_exact",
    "C56_exact"
   ],
   "note": "The exact extent of C51, C52, C56, which as stated are false of the code. The modules are not part of the crate."
  },
  {
   "property": "C98",
   "status": "proved",
   "theorems": [
    "C98_built",
    "C98_order"
   ],
   "note": "What derive_builder generates from the attributes is taken from its documentation."
  },
  {
   "property": "C99",
   "status": "proved",
   "theorems": [
    "C99_degrees",
    "C99_conversion"
   ],
   "note": ""
  },
  {
   "property": "C100",
   "status": "proved",
   "theorems": [
    "C100_seven_decimals",
    "C100_any_text"
   ],
   "note": ""
  },
  {
   "property": "C101",
   "status": "proved",
   "theorems": [
    "C101_string",
    "C101_arc",
    "C101_positions",
    "C101_files"
   ],
   "note": "Which spare elements of uneven columns are evaluated is a parameter of the model (record build); C101_uneven shows a block on which it matters."
  },
  {
   "property": "C102",
   "status": "proved",
   "theorems": [
    "C102_messages",
    "C102_frames",
    "C102_files",
    "C102_objects_determined"
   ],
   "note": "For the variant of the protobuf library that rejects numbers too large for their field and tags (the parameters of PbWire all true) and a decompressor that yields bytes."
  },
  {
   "property": "C103",
   "status": "proved",
   "theorems": [
    "C103_coordinate_exact",
    "C103_timestamp_exact",
    "C103_object_type_exact",
    "C103_written",
    "C103_round_trip"
   ],
   "note": "The derived implementations are modelled from serde's documented data model, used with serde_json's to_string and from_str; JSON texts and their values are those of the specification's own parser."
  },
  {
   "property": "C104",
   "status": "proved",
   "theorems": [
    "C104_position",
    "C104_any_source"
   ],
   "note": "The source is what the reader was given (a BufReader keeps its own buffer, which is outside this property). How many objects a frame holds is what the reader finds in it; C43 and C101 say what that is."
  },
  {
   "property": "C105",
   "status": "proved",
   "theorems": [
    "C105_drop",
    "C105_from_iter"
   ],
   "note": "What the calls and one more close produce on a destination that does not fail is C23_xml_output and C24_document. Rust's rule that a panic during unwinding aborts is part of the model."
  },
  {
   "property": "C106",
   "status": "proved",
   "theorems": [
    "C43_block_exact",
    "C43_exact"
   ],
   "note": "The exact extent of C43, for blocks and for files. What a block means is SpecPbf.group_is; string tables are text."
  },
  {
   "property": "C107",
   "status": "proved",
   "theorems": [
    "C107_xml",
    "C107_osc",
    "C107_number"
   ],
   "note": "Which objects have arrived is stated by byte counts (arrived); C107_number: the number always exists (and is unique)."
  },
  {
   "property": "C108",
   "status": "proved",
   "theorems": [
    "C108_text",
    "C108_tag_reader",
    "C108_values",
    "C108_dump"
   ],
   "note": "Texts are described by a grammar (SpecDump.v) with all layouts of the events; C108_dump: the canonical dump of any changesets (SpecDumpText.v). The tokenizer is the model of quick-xml in QuickXml.v."
  },
  {
   "property": "C109",
   "status": "proved",
   "theorems": [
    "C109_cut",
    "C109_failing",
    "C109_tag_reader",
    "C109_dump"
   ],
   "note": "C109_cut gives the exact behaviour for every byte position; the cut inside a changeset in character data is the case in which next_changeset does not return (C48)."
  },
  {
   "property": "C110",
   "status": "proved",
   "theorems": [
    "C110_changesets",
    "C110_changesets_cut",
    "C110_changesets_boundary",
    "C110_tag_reader",
    "C110_xml",
    "C110_xml_cut"
   ],
   "note": "The bzip2 crate is a parameter with the laws of `decodes` (Bz2.v); C110_ex gives a format and decoder that satisfy them."
  },
  {
   "property": "C111",
   "status": "proved",
   "theorems": [
    "C111_objects",
    "C111_copy",
    "C111_copy_osc",
    "C111_same_text",
    "C111_same_bytes_osc"
   ],
   "note": "Exact boundary for copies of arbitrary files (C111_copy, C111_copy_osc); same bytes for files made by the writer (C111_same_text, C111_same_bytes_osc)."
  },
  {
   "property": "C112",
   "status": "proved",
   "theorems": [
    "C112_wellformed",
    "C112_unique",
    "C112_objects",
    "C112_end",
    "C112_layout"
   ],
   "note": "Grammar of documents in SpecXmlDoc.v, stated without the parser; C112_wellformed shows that it is exactly the language the parser model accepts, C112_unique that a text has one tree. No DOCTYPE and no names with colons in the model."
  },
  {
   "property": "C113",
   "status": "proved",
   "theorems": [
    "C113_determined",
    "C113_string",
    "C113_positions",
    "C113_arc",
    "C113_ends",
    "C113_tail",
    "C113_same",
    "C113_xml"
   ],
   "note": "PbfPanic.v models the readers with the state a panicking call leaves (catch_unwind); C113_same proves they answer like those of PbfRead.v as long as no panic has happened. std's read_exact is taken to have consumed the source when it fails at its end; xml-rs's iterator yields nothing after an error."
  },
  {
   "property": "C114",
   "status": "proved",
   "theorems": [
    "C114_text",
    "C114_round_trip",
    "C114_display"
   ],
   "note": "core's float_to_general_debug is modelled for coordinates; its digit generation is specified as the shortest decimal and proved to be the exact decimal of the coordinate. A precision: C131; other formatter options are not modelled."
  },
  {
   "property": "C115",
   "status": "proved",
   "theorems": [
    "C115_objects",
    "C115_end",
    "C115_complete_refuted"
   ],
   "note": "C115_objects gives the objects returned for any tree; C115_end is the exact condition for reading a file to its end; C115_complete_refuted is a file cut short without an error."
  },
  {
   "property": "C116",
   "status": "proved",
   "theorems": [
    "C116_total",
    "C116_exact",
    "C116_sortable",
    "C116_usual",
    "C116_cycle_refuted"
   ],
   "note": "C116_exact is the exact condition for transitivity, C116_sortable the existence of an order under it, C116_usual the usual cases, C116_cycle_refuted a circle."
  },
  {
   "property": "C117",
   "status": "proved",
   "theorems": [
    "C117_separated",
    "C117_report"
   ],
   "note": "The texts of durations and rates are arbitrary functions; separated_string of the crate separator is modelled for unsigned integers."
  },
  {
   "property": "C118",
   "status": "proved",
   "theorems": [
    "C118_kept",
    "C118_kept_others"
   ],
   "note": "Counts decoded objects; the bytes of the block under decoding and allocator behaviour are not modelled."
  },
  {
   "property": "C119",
   "status": "proved",
   "theorems": [
    "C119_total",
    "C119_file_order",
    "C119_names_refuted"
   ],
   "note": "C119_names_refuted shows that the order is not the one of the names, as the statement says."
  },
  {
   "property": "C120",
   "status": "proved",
   "theorems": [
    "C120_same",
    "C120_program",
    "C120_equal_refuted",
    "C120_words"
   ],
   "note": "core's formatting (debug_struct, debug_tuple, debug_list, PadAdapter, escape_debug) is modelled; which characters are printable is an arbitrary table. C120_equal_refuted is the last sentence of the statement."
  },
  {
   "property": "C121",
   "status": "proved",
   "theorems": [
    "C121_alike",
    "C121_order_refuted"
   ],
   "note": "alike is the relation between the trees of the two documents. C121_order_refuted is the last sentence: swapping two nd elements gives another way."
  },
  {
   "property": "C122",
   "status": "proved",
   "theorems": [
    "C122_xml",
    "C122_pbf",
    "C122_bzip2",
    "C122_kinds_refuted"
   ],
   "note": "That the bzip2 decoder checks the first three bytes is a hypothesis (checks_magic). Memory is unlimited in the model: the PBF readers first allocate as many bytes as the first four announce. C122_kinds_refuted is the last sentence of the statement."
  },
  {
   "property": "C123",
   "status": "proved",
   "theorems": [
    "C123_edit"
   ],
   "note": "from_file, allowed and edited are the specification; from_file is exactly when a copy without edits has all objects (C111_copy, C67_exact). What unset_tag does to repeated keys is C15."
  },
  {
   "property": "C124",
   "status": "proved",
   "theorems": [
    "C124_alike",
    "C124_tag_reader"
   ],
   "note": "says_same and same_reply are the specification, on the texts of SpecDump (text_of). The tag reader gives its tags as a list, so it needs the same order."
  },
  {
   "property": "C125",
   "status": "proved",
   "theorems": [
    "C125_changesets",
    "C125_tag_reader",
    "C125_xml",
    "C125_opl"
   ],
   "note": "PBF files: C68. The XML part rests on the parser refusing a second root element, as XML 1.0 says (XmlToken.v stands for xml-rs)."
  },
  {
   "property": "C126",
   "status": "proved",
   "theorems": [
    "C126_each_line"
   ],
   "note": "line_yields (C66) says what a line gives. The module is not part of the crate."
  },
  {
   "property": "C127",
   "status": "proved",
   "theorems": [
    "C127_any",
    "C127_export",
    "C127_dump",
    "C127_cut",
    "C127_boundary"
   ],
   "note": "reports, nothing_stored and contents are the specification, with holds of C64. SQLite is modelled by its transaction guarantees, bzip2 by the laws of `decodes`; progress lines are not modelled and printing is taken to succeed."
  },
  {
   "property": "C128",
   "status": "proved",
   "theorems": [
    "C128_line",
    "C128_file",
    "C128_last_break",
    "C128_complete_refuted"
   ],
   "note": "cut_object is the specification, with lines and line_yields of C66. C128_complete_refuted: what is read from a cut file need not have been in it. The module is not part of the crate."
  },
  {
   "property": "C129",
   "status": "proved",
   "theorems": [
    "C129_crash",
    "C129_dropped",
    "C129_returned_refuted",
    "C129_torn_refuted"
   ],
   "note": "wreach: all states of the buffered writer. C129_dropped also justifies leaving out the buffer in C56. C129_returned_refuted, C129_torn_refuted: the two stronger claims are false. I/O does not fail; what the system loses when it stops itself is not modelled. The module is not part of the crate."
  },
  {
   "property": "C130",
   "status": "proved",
   "theorems": [
    "C130_settled",
    "C130_never_set",
    "C130_own_bytes",
    "C130_halves_refuted"
   ],
   "note": "read_during: what a get can read between a state of the writer and its end. C130_halves_refuted: the stronger claim is false. std's BufReader::seek is taken to drop what was read before. I/O does not fail. The module is not part of the crate."
  },
  {
   "property": "C131",
   "status": "proved",
   "theorems": [
    "C131_nearest",
    "C131_exact",
    "C131_read_exact",
    "C131_read_near",
    "C131_more_digits_refuted"
   ],
   "note": "core's to_exact_fixed_str is trusted to round the binary number correctly; what it does with ties is a parameter. FixedText is the specification. C131_more_digits_refuted: the bound of 13 digits cannot be raised. Width and sign options are not modelled."
  }
 ]
}