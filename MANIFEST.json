{
 "claims": [
  {
   "property": "C01",
   "status": "proved",
   "theorems": [
    "C01_control_characters_roundtrip",
    "C01_escape_is_caret_notation"
   ],
   "note": "all strings"
  },
  {
   "property": "C02",
   "status": "proved",
   "theorems": [
    "C02_text_framing",
    "C02_binary_framing"
   ],
   "note": "all strings, text and binary output; control characters are those below 32"
  },
  {
   "property": "C03",
   "status": "partial",
   "theorems": [
    "C03_unicode_refuted",
    "C03_unicode_roundtrip_partial",
    "C03_plain_text_roundtrip_partial",
    "C03_exact_condition"
   ],
   "note": "false in general (C03_unicode_refuted); proved under the exact condition"
  },
  {
   "property": "C04",
   "status": "partial",
   "theorems": [
    "C04_i32_roundtrip",
    "C04_i64_roundtrip",
    "C04_i16_roundtrip_partial",
    "C04_i16_range_refuted"
   ],
   "note": "32- and 64-bit complete; 16-bit values out of range are clamped (C04_i16_range_refuted)"
  },
  {
   "property": "C05",
   "status": "partial",
   "theorems": [
    "C05_handle_roundtrip",
    "C05_handle_texts_distinct",
    "C05_handle_spellings_partial",
    "C05_leading_zeros_refuted"
   ],
   "note": "all handles and all spellings up to 16 digits; longer spellings are misread (C05_leading_zeros_refuted)"
  },
  {
   "property": "C06",
   "status": "proved",
   "theorems": [
    "C06_binary_roundtrip"
   ],
   "note": "all byte vectors"
  },
  {
   "property": "C07",
   "status": "proved",
   "theorems": [
    "C07_exact_binary_fractions",
    "C07_nearest_of_twelve_decimals",
    "C07_second_save_is_stable",
    "C07_identity_refuted"
   ],
   "note": "all three parts: exactness for 4096ths, nearest of twelve decimals, identity refuted"
  },
  {
   "property": "C08",
   "status": "proved",
   "theorems": [
    "C08_delivered_pairs_are_typed",
    "C08_type_table_is_the_documented_one",
    "C08_ranges_do_not_overlap",
    "C08_unknown_code_is_an_error"
   ],
   "note": "all inputs of both readers"
  },
  {
   "property": "C09",
   "status": "partial",
   "theorems": [
    "C09_text_stream_roundtrip_partial"
   ],
   "note": "all sequences of typed pairs with faithful values (text_faithful)"
  },
  {
   "property": "C10",
   "status": "partial",
   "theorems": [
    "C10_binary_stream_roundtrip_partial",
    "C10_binary_string_refuted",
    "C10_binary_chunk_refuted",
    "C10_binary_bool_refuted"
   ],
   "note": "all sequences with faithful values (binary_faithful); the exceptions are refuted"
  },
  {
   "property": "C11",
   "status": "partial",
   "theorems": [
    "C11_loading_line_ends_partial",
    "C11_line_end_style_partial",
    "C11_blanks_do_not_matter",
    "C11_double_cr_refuted"
   ],
   "note": "blanks complete; line ends, up to the drawing loaded, for files without CR CR and without UTF-16 marks at line starts"
  },
  {
   "property": "C12",
   "status": "proved",
   "theorems": [
    "C12_reading_terminates",
    "C12_every_pair_consumes"
   ],
   "note": "all byte sequences, both readers"
  },
  {
   "property": "C13",
   "status": "partial",
   "theorems": [
    "C13_text_positions",
    "C13_binary_positions_partial",
    "C13_binary_positions_refuted"
   ],
   "note": "text complete; binary positions are two too small (refuted), proved with that correction"
  },
  {
   "property": "C14",
   "status": "proved",
   "theorems": [
    "C14_comments_in_files",
    "C14_comment_encoding_refuted",
    "C14_comments_are_invisible"
   ],
   "note": "all sources, all readers of the stream; down to bytes for text files of readable pairs (in files with errors their positions change)"
  },
  {
   "property": "C15",
   "status": "proved",
   "theorems": [
    "C15_putback_is_a_list",
    "C15_nothing_lost_duplicated_or_reordered",
    "C15_handed_back_is_next"
   ],
   "note": "all sources, all readers and all interleavings"
  },
  {
   "property": "C16",
   "status": "partial",
   "theorems": [
    "C16_extension_groups_roundtrip_partial",
    "C16_empty_group_refuted"
   ],
   "note": "all non-empty groups; empty groups are lost (C16_empty_group_refuted)"
  },
  {
   "property": "C17",
   "status": "proved",
   "theorems": [
    "C17_extended_data_roundtrip",
    "C17_not_written_before_r2000",
    "C17_codes"
   ],
   "note": "all items, all versions"
  },
  {
   "property": "C18",
   "status": "proved",
   "theorems": [
    "C18_success_means_complete",
    "C18_not_opened_is_an_error",
    "C18_cut_off_is_an_error",
    "C18_cut_off_xdata_is_an_error",
    "C18_reading_groups_terminates"
   ],
   "note": "all names and streams, for extension groups and extended data"
  },
  {
   "property": "C19",
   "status": "proved",
   "theorems": [
    "C19_handles_unique",
    "C19_never_reused",
    "C19_cloned_children_refuted",
    "C19_block_members_refuted"
   ],
   "note": "All histories of adding (every kind), removing, normalizing, taking handles for vertices and attributes, and edits that leave handles alone, from Drawing::new(). The 64-bit counter is modelled as unbounded. Refuted: cloned polylines share the handles of their vertices; SEQEND and vertices of polylines inside blocks get no handle."
  },
  {
   "property": "C20",
   "status": "proved",
   "theorems": [
    "C20_items_are_found",
    "C20_only_those",
    "C20_zero_finds_nothing",
    "C20_added_is_found"
   ],
   "note": "Every item of a reachable drawing is found by its handle; for any drawing, what is found is there and has the handle, and what is not found is not there; zero finds nothing in reachable drawings."
  },
  {
   "property": "C21",
   "status": "proved",
   "theorems": [
    "C21_remove_table",
    "C21_remove_others"
   ],
   "note": "All twelve collections."
  },
  {
   "property": "C22",
   "status": "proved",
   "theorems": [
    "C22_tables",
    "C22_rest"
   ],
   "note": "For any order in which the hash set of coordinate system names is gone through."
  },
  {
   "property": "C23",
   "status": "proved",
   "theorems": [
    "C23_idempotent_refuted",
    "C23_second_time",
    "C23_third_time"
   ],
   "note": "Plain idempotence is refuted (the z spacings of the view port *ACTIVE); what changes the second time is stated exactly, and the third time nothing changes."
  },
  {
   "property": "C24",
   "status": "proved",
   "theorems": [
    "C24_entity_references",
    "C24_object_references",
    "C24_block_references",
    "C24_block_record_refuted",
    "C24_layer_references"
   ],
   "note": "Entities (layer, line type, dimension, text and multi-line style), objects, blocks and layers. Block records are duplicated (refuted)."
  },
  {
   "property": "C25",
   "status": "proved",
   "theorems": [
    "C25_clear",
    "C25_like_empty",
    "C25_header_refuted"
   ],
   "note": "The header is not reset (refuted)."
  },
  {
   "property": "C26",
   "status": "partial",
   "theorems": [
    "C26_sections_partial",
    "C26_section_entity_refuted",
    "C26_class_name_refuted",
    "C26_extension_group_refuted"
   ],
   "note": "Shown for drawings without Section entities, without classes named like a marker (up to R13) and without a marker among the pairs that a caller supplies in extension groups, x-records and the like; each of these three is refuted. CLASSES is written for any version if there are classes."
  },
  {
   "property": "C27",
   "status": "proved",
   "theorems": [
    "C27_unknown_section",
    "C27_unknown_section_ascii"
   ],
   "note": "at every section boundary, for any decoding of the rest of the file"
  },
  {
   "property": "C28",
   "status": "proved",
   "theorems": [
    "C28_unknown_entities",
    "C28_unknown_entities_in_block",
    "C28_unknown_objects",
    "C28_unknown_tables"
   ],
   "note": "entities (also in blocks), objects and tables, wherever the known items around them are read without looking past their end"
  },
  {
   "property": "C29",
   "status": "partial",
   "theorems": [
    "C29_nothing_lost",
    "C29_polyline_group",
    "C29_insert_group",
    "C29_regroup_before_r13",
    "C29_regroup_since_r13_partial",
    "C29_insert_attributes_refuted"
   ],
   "note": "Conservation and grouping proved for all sequences; the round trip is proved for everything but inserts with attributes from R13 on, where it is refuted (finding)."
  },
  {
   "property": "C30",
   "status": "partial",
   "theorems": [
    "C30_block_entities_kept_partial",
    "C30_entities_partial",
    "C30_objects_partial",
    "C30_block_heads_partial",
    "C30_other_sections",
    "C30_last_pair_refuted",
    "C30_vertex_refuted",
    "C30_block_refuted"
   ],
   "note": "A malformed pair is reported in every section other than BLOCKS, ENTITIES and OBJECTS; in ENTITIES (without attributes, inserts or polylines before it) and OBJECTS unless 0/ENDSEC follows it directly; in BLOCKS in the pairs of a block before its first entity. Within an entity of a block it is not reported, but the entities before and after that one are kept (C30_block_entities_kept_partial). The statement itself is false: a malformed last pair of the section loses the entity or object silently, one at the end of a vertex breaks the polyline apart silently, and within a block the pairs after it are applied to the block."
  },
  {
   "property": "C31",
   "status": "partial",
   "theorems": [
    "C31_entries_survive_partial",
    "C31_owner_refuted",
    "C31_separator_refuted",
    "C31_wide_integer_refuted"
   ],
   "note": "all fields of all nine tables at all versions, except the owner handle (never written, C31_owner_refuted), non-positive layer colours, separator characters above 255 and integers that do not fit their code (C31_wide_integer_refuted)"
  },
  {
   "property": "C32",
   "status": "proved",
   "theorems": [
    "C32_header_survives",
    "C32_lossy_fields_survive_if_representable",
    "C32_r11_refuted",
    "C32_dimension_fit_refuted",
    "C32_halo_gap_refuted",
    "C32_clipping_refuted",
    "C32_wide_integers_refuted",
    "C32_unknown_variables_skipped",
    "C32_wrong_code_is_an_error"
   ],
   "note": "All 285 variables, 21 versions, all values. Exceptions, each refuted with a witness: R11 comes back as R12; DIMATFIT from R2000; HALOGAP from R2004 (fractions); XCLIPFRAME in R2004-R2007 (third value); 32-bit values under 16-bit codes. Instants within one second (C50); third components of two-component points are not stored."
  },
  {
   "property": "C33",
   "status": "proved",
   "theorems": [
    "C33_entities_survive",
    "C33_flawless_entities",
    "C33_exceptions_refuted",
    "C33_rotated_dimension_refuted",
    "C33_wide_integers_refuted"
   ],
   "note": "all 46 entity shapes (all types, custom readers and writers included) at every version; the 20 listed exceptions are each shown to be real, integers must fit the type of their code (C33_wide_integers_refuted), rotated dimensions vanish before R13"
  },
  {
   "property": "C34",
   "status": "proved",
   "theorems": [
    "C34_objects_survive",
    "C34_flawless_objects",
    "C34_exceptions_refuted",
    "C34_wide_integers_refuted"
   ],
   "note": "the 33 object types whose writer is generated (and the light list) at every version; the listed exceptions are each shown to be real, integers must fit the type of their code (C34_wide_integers_refuted), mesh points of GEODATA have z = 0 and face indices are whole numbers"
  },
  {
   "property": "C35",
   "status": "proved",
   "theorems": [
    "C35_flags_read_as_last_set",
    "C35_other_bits_untouched",
    "C35_word_stays_i32",
    "C35_proxy_version_refuted",
    "C35_proxy_release_refuted"
   ],
   "note": "Every flag accessor of the crate, as data generated from the sources; the two proxy word accessors are the exception (findings)."
  },
  {
   "property": "C36",
   "status": "proved",
   "theorems": [
    "C36_dimension_word_roundtrip",
    "C36_dimension_word_meaning",
    "C36_stored_word_kept"
   ],
   "note": "Dimension words."
  },
  {
   "property": "C37",
   "status": "partial",
   "theorems": [
    "C37_one_kind",
    "C37_one_kind_refuted",
    "C37_index_roundtrip",
    "C37_index_is_faithful",
    "C37_index_zero_refuted",
    "C37_layer_color_roundtrip",
    "C37_layer_visibility",
    "C37_layer_color_zero_refuted",
    "C37_layer_color_panics_refuted"
   ],
   "note": "Round trips proved for colours with a kind; index 0, raw values above 257 and layer colours 0 and -32768 are refuted (findings)."
  },
  {
   "property": "C38",
   "status": "proved",
   "theorems": [
    "C38_version_text_roundtrip",
    "C38_r11_reads_as_r12",
    "C38_version_order",
    "C38_version_texts_distinct"
   ],
   "note": "all versions; R11 is read as R12"
  },
  {
   "property": "C39",
   "status": "proved",
   "theorems": [
    "C39_header_rebuilt",
    "C39_thumbnail_roundtrip",
    "C39_lines_are_short",
    "C39_large_header_refuted"
   ],
   "note": "For bitmap header sizes and offsets below 2^31; above, the reader panics (finding)."
  },
  {
   "property": "C40",
   "status": "partial",
   "theorems": [
    "C40_entities_partial",
    "C40_singles_exact_partial",
    "C40_with_block_refuted",
    "C40_blocks_alone_refuted",
    "C40_height_refuted",
    "C40_bulge_refuted",
    "C40_layer_refuted"
   ],
   "note": "For every drawing without blocks, the entities a DXB file can hold come back in order with type, layer, colour and (single-precision) numbers, everything else as in a new entity; numbers that are singles come back exactly. Missing, each refuted by a theorem: drawings that also have blocks, heights of flat entities, bulges, layer names beyond Latin-1."
  },
  {
   "property": "C41",
   "status": "proved",
   "theorems": [
    "C41_points_recombined",
    "C41_flat_points_recombined",
    "C41_points_by_position"
   ],
   "note": "Recombination of point lists by position."
  },
  {
   "property": "C42",
   "status": "proved",
   "theorems": [
    "C42_matrix_roundtrip",
    "C42_values_roundtrip",
    "C42_any_list",
    "C42_spatial_filter_matrix_refuted",
    "C42_spatial_filter_matrix"
   ],
   "note": "Matrices round trip; SpatialFilter's own matrices do not (finding)."
  },
  {
   "property": "C43",
   "status": "partial",
   "theorems": [
    "C43_classes_roundtrip_partial",
    "C43_endsec_refuted"
   ],
   "note": "Classes come back in both layouts for every version, with the fields the version stores. Refuted in one corner: up to R13 a class whose record name is ENDSEC ends the section (C43_endsec_refuted)."
  },
  {
   "property": "C44",
   "status": "partial",
   "theorems": [
    "C44_blocks_roundtrip_partial",
    "C44_extended_data_refuted",
    "C44_extension_group_refuted"
   ],
   "note": "Blocks come back with their entities for every version. Lost: extended data (C44_extended_data_refuted), handles of the block's entities. Extension groups holding a 0 pair make the file unreadable (C44_extension_group_refuted)."
  },
  {
   "property": "C45",
   "status": "proved",
   "theorems": [
    "C45_dictionary_survives",
    "C45_dictionary_with_default_survives",
    "C45_written_order_is_fixed",
    "C45_keys_increase",
    "C45_hard_owner_refuted",
    "C45_reading_dictionaries",
    "C45_reading_dictionaries_with_default",
    "C45_reading_dictionary_fields",
    "C45_reading_dictionary_default"
   ],
   "note": "all dictionaries with distinct keys, entries and written order; reading of all sequences of pairs without groups; is_hard_owner is not part of the claim and is lost (C45_hard_owner_refuted)"
  },
  {
   "property": "C46",
   "status": "partial",
   "theorems": [
    "C46_reading_data_tables",
    "C46_lists_of_the_xml_file_survive",
    "C46_lists_of_the_xml_file_refuted",
    "C46_xrecord_data_partial",
    "C46_xrecord_refuted",
    "C46_xrecord_zero_refuted",
    "C46_data_table_partial",
    "C46_data_table_values_refuted",
    "C46_data_table_write_panic_refuted",
    "C46_data_table_read_panic_refuted",
    "C46_section_settings_partial",
    "C46_section_settings_merge_refuted",
    "C46_section_settings_hang_refuted",
    "C46_table_style_partial",
    "C46_table_style_old_refuted",
    "C46_table_style_cells_refuted",
    "C46_spatial_filter_partial",
    "C46_spatial_filter_refuted",
    "C46_spatial_filter_matrices_written",
    "C46_sun_study_partial",
    "C46_sun_study_dates_refuted",
    "C46_data_table_first_row_only",
    "C46_reading_xrecords",
    "C46_xrecord_rule_refuted"
   ],
   "note": "false for light lists, id buffers, section managers, multi-line styles, x-records, data table values, section settings, cell styles, matrices and dates (the refuted theorems); proved for the lists that survive and for everything else of those objects"
  },
  {
   "property": "C47",
   "status": "proved",
   "theorems": [
    "C47_set_then_get",
    "C47_wrong_kind_is_an_error",
    "C47_right_kind",
    "C47_list"
   ],
   "note": "The get, set and add methods generated for <Pointer> elements, for every declared kind and type."
  },
  {
   "property": "C48",
   "status": "partial",
   "theorems": [
    "C48_save_load_text_partial",
    "C48_save_load_binary_partial",
    "C48_pairs_partial",
    "C48_default_header_refuted",
    "C48_child_handles_refuted",
    "C48_insert_attributes_refuted",
    "C48_mline_style_refuted",
    "C48_comment_pairs_refuted"
   ],
   "note": "Drawings come back from text and binary files, up to the listed exceptions; values must be storable in the format (text: twelve decimals, safe backslashes; binary: ASCII). Refuted corners: default header angles in text files, handles of vertices and attributes, inserts with attributes from R13 on, multi-line styles doubled, 999 pairs in x-records."
  },
  {
   "property": "C49",
   "status": "partial",
   "theorems": [
    "C49_old_versions_partial",
    "C49_markers_refuted",
    "C49_tables_and_classes_refuted"
   ],
   "note": "No OBJECTS before R13, no THUMBNAILIMAGE and no extended data before R2000, no extension groups before R14, no entity types before their version; no subclass markers in entities before R13 apart from seven entity types. Refuted: arcs (and the others) have subclass markers, tables have them, and CLASSES is written for R10 to R12."
  },
  {
   "property": "C50",
   "status": "partial",
   "theorems": [
    "C50_date_roundtrip",
    "C50_stored_value",
    "C50_early_dates_clamped",
    "C50_reading_in_range",
    "C50_exact_roundtrip_refuted",
    "C50_no_drift_refuted",
    "C50_never_fails_refuted",
    "C50_infinities_refuted",
    "C50_late_dates_refuted",
    "C50_duration_roundtrip",
    "C50_long_duration_refuted"
   ],
   "note": "Round trip to within one second proved; 'never fails' and exactness are refuted (findings)."
  },
  {
   "property": "C51",
   "status": "proved",
   "theorems": [
    "C51_vertices_survive",
    "C51_any_vertices"
   ],
   "note": "from C33 for the light-weight polyline; zeros may change sign, identifiers are stored from R2013 on"
  },
  {
   "property": "C52",
   "status": "proved",
   "theorems": [
    "C52_written_form",
    "C52_uuid_roundtrip",
    "C52_accepted_forms",
    "C52_other_text_is_nil"
   ],
   "note": ""
  },
  {
   "property": "C53",
   "status": "partial",
   "theorems": [
    "C53_files_end_partial",
    "C53_dxb_ends",
    "C53_load_ends_partial",
    "C53_block_ends_partial",
    "C53_open_block_refuted"
   ],
   "note": "Every sequence of bytes without blocks and section settings is loaded in finitely many steps, and so is every block not interrupted by the end of its section; every DXB file is read to an end; files with an open block loop forever (refuted)."
  },
  {
   "property": "C54",
   "status": "partial",
   "theorems": [
    "C54_files_do_not_panic_partial",
    "C54_dxb_does_not_panic",
    "C54_load_does_not_panic_partial",
    "C54_load_refuted"
   ],
   "note": "No panic on any sequence of bytes free of the listed constructs (dates, out-of-range numbers, data tables, thumbnails, ...) nor on any DXB file; for six of the constructs a panicking file is given (refuted)."
  },
  {
   "property": "C55",
   "status": "partial",
   "theorems": [
    "C55_types_partial",
    "C55_sun_study_refuted"
   ],
   "note": "Shown for all pairs but those supplied as such by the caller (extension groups, x-records, ...) and the hours of a SunStudy, which are 16-bit integers under the boolean code 290 (refuted)."
  },
  {
   "property": "C56",
   "status": "partial",
   "theorems": [
    "C56_text_and_binary_agree_partial",
    "C56_new_drawing_refuted"
   ],
   "note": "For all drawings whose pairs both formats can store; refuted for the angles of a new drawing of 2007, which text files round."
  },
  {
   "property": "C57",
   "status": "partial",
   "theorems": [
    "C57_plain_files_partial",
    "C57_backslash_refuted"
   ],
   "note": "For all files of bytes below 128 without backslashes; refuted with a backslash at the end of a name."
  },
  {
   "property": "C58",
   "status": "partial",
   "theorems": [
    "C58_dxb",
    "C58_sections_are_closed_partial",
    "C58_between_sections_refuted"
   ],
   "note": "Shown for DXB files cut anywhere after the first line. An accepted text or binary file has its last section closed or an end mark; that a section is missing is not noticed (refuted)."
  },
  {
   "property": "C59",
   "status": "partial",
   "theorems": [
    "C59_handles_are_free_partial",
    "C59_no_seed_refuted",
    "C59_saved_and_loaded_text_partial",
    "C59_saved_and_loaded_binary_partial"
   ],
   "note": "Shown for files whose header, if any, comes first and whose handles in later sections are below the next handle of the loaded drawing; without that it is refuted. Also shown for drawings that are made by adding and removing, saved as text or binary and loaded again, when nothing is named HEADER, no object lists handles of others with code 5 and no supplied pair has a code of a handle."
  },
  {
   "property": "C60",
   "status": "proved",
   "theorems": [
    "C60_saving_made_drawings",
    "C60_loaded_to_any_version",
    "C60_any_file_refuted"
   ],
   "note": "The naive claim without the exception is refuted by C60_any_file_refuted."
  },
  {
   "property": "C61",
   "status": "partial",
   "theorems": [
    "C61_reading_attributes",
    "C61_reading_attribute_records",
    "C61_documented_attributes_accepted",
    "C61_documented_attribute_records_accepted",
    "C61_writing_attributes",
    "C61_attribute_lock_refuted",
    "C61_reading_entities",
    "C61_documented_entities_accepted",
    "C61_reading_tables",
    "C61_documented_tables_accepted",
    "C61_writing_entities",
    "C61_writing_tables",
    "C61_reading_objects",
    "C61_documented_objects_accepted",
    "C61_writing_objects",
    "C61_dimension_lines_refuted",
    "C61_dimstyle_handle_refuted",
    "C61_zero_suppression_refuted",
    "C61_wipeout_refuted",
    "C61_material_refuted",
    "C61_fog_refuted",
    "C61_reading_layouts",
    "C61_writing_layouts",
    "C61_layout_setup_refuted",
    "C61_reading_rest_entities",
    "C61_documented_rest_accepted",
    "C61_writing_rest_entities",
    "C61_reading_rest_objects",
    "C61_writing_rest_objects",
    "C61_proxy_owner_refuted",
    "C61_reading_r2000_texts",
    "C61_documented_r2000_texts_accepted",
    "C61_writing_r2000_texts",
    "C61_sort_owner_refuted"
   ],
   "note": "Shown for the types and codes listed in DocSpec.v and RestSpec.v, 39 entities, 21 objects and 9 tables, for layouts behind their marker and for attributes before and behind theirs; the other types and codes of the reference are not listed. Where the library departs from the reference is refuted."
  },
  {
   "property": "C62",
   "status": "partial",
   "theorems": [
    "C62_reading_variables",
    "C62_documented_variables_accepted",
    "C62_writing_variables",
    "C62_nonzero_refuted",
    "C62_zero_suppression_refuted"
   ],
   "note": "Shown for the 268 rows listed in DocSpec.v. Flags that are neither 0 nor 1 and the zero suppression are refuted."
  },
  {
   "property": "C63",
   "status": "proved",
   "theorems": [
    "C63_text_trailer",
    "C63_saved_text_trailer",
    "C63_binary_trailer",
    "C63_saved_binary_trailer",
    "C63_no_mark_refuted"
   ],
   "note": "Text files with the mark, binary files of well-formed pairs, saved drawings. Without the mark it is refuted."
  },
  {
   "property": "C64",
   "status": "proved",
   "theorems": [
    "C64_sections_apart",
    "C64_binary_sections_apart",
    "C64_text_sections_apart",
    "C64_any_order",
    "C64_tables_last_refuted"
   ],
   "note": "Pairs, binary bytes, and text bytes with ASCII strings. That the order of TABLES and ENTITIES does not matter for layers is refuted."
  },
  {
   "property": "C65",
   "status": "proved",
   "theorems": [
    "C65_entities_any_order",
    "C65_ordered_entities_refuted",
    "C65_objects_any_order",
    "C65_ordered_objects_refuted",
    "C65_table_items_any_order",
    "C65_shared_codes_refuted",
    "C65_files_any_order",
    "C65_binary_files_any_order",
    "C65_text_files_any_order"
   ],
   "note": "All types; those that depend on the order are excepted in the statement and each is shown to (refuted theorems). Objects with a reader of their own are outside of the claim, table items are compared as read, not in a whole file."
  },
  {
   "property": "C66",
   "status": "proved",
   "theorems": [
    "C66_entities_ignore_other_codes",
    "C66_objects_ignore_other_codes",
    "C66_table_items_ignore_other_codes",
    "C66_files_ignore_other_codes",
    "C66_binary_files_ignore_other_codes",
    "C66_text_files_ignore_other_codes"
   ],
   "note": "All types of entities and table items and all objects without a reader of their own; whole files for entities."
  },
  {
   "property": "C67",
   "status": "proved",
   "theorems": [
    "C67_entities_written_again",
    "C67_entities_refuted",
    "C67_objects_written_again",
    "C67_objects_refuted",
    "C67_table_items_written_again",
    "C67_view_port_ucs_refuted",
    "C67_block_heads_written_again",
    "C67_classes_written_again"
   ],
   "note": "Exact list of exceptions. Items one by one: x-data after attributes and vertices, and whole files, are not covered."
  },
  {
   "property": "C68",
   "status": "proved",
   "theorems": [
    "C68_loaded_complete",
    "C68_added_complete",
    "C68_new_complete",
    "C68_removed_refuted",
    "C68_members_and_inserts_refuted",
    "C68_mline_style_names"
   ],
   "note": "For all bytes and all histories of additions and normalizations. Refuted for removal, for styles of block members and for the blocks inserts name (findings)."
  },
  {
   "property": "C69",
   "status": "proved",
   "theorems": [
    "C69_handles_written",
    "C69_handles_differ",
    "C69_seed",
    "C69_block_ends_refuted",
    "C69_attribute_texts_refuted",
    "C69_block_members_refuted"
   ],
   "note": "the exact list of declared handles for every drawing; distinct for drawings made by adding and removing; the exceptions are refuted by witnesses"
  },
  {
   "property": "C70",
   "status": "partial",
   "theorems": [
    "C70_reading_entity_lists_partial",
    "C70_reading_object_lists_partial",
    "C70_reading_table_lists_partial",
    "C70_writing_entity_lists_partial",
    "C70_writing_object_lists_partial",
    "C70_writing_table_lists_partial",
    "C70_written_elsewhere_refuted",
    "C70_wipeout_refuted",
    "C70_reading_binary_data",
    "C70_writing_binary_data",
    "C70_reading_object_binary_data",
    "C70_writing_object_binary_data",
    "C70_reading_macros",
    "C70_frame_preview_refuted",
    "C70_reading_proxy_lists",
    "C70_writing_proxy_lists_partial",
    "C70_proxy_owner_listed_refuted",
    "C70_reading_proxy_identifiers",
    "C70_proxy_object_owner_refuted",
    "C70_reading_sort_tables",
    "C70_writing_sort_tables",
    "C70_reading_vertices",
    "C70_writing_vertices",
    "C70_vertex_not_begun"
   ],
   "note": "Shown for thirteen types of entities, seven of objects and for line types; for binary data (310) of every type of entity, proxy objects and, reading only, macros and the identifiers of proxy objects. Not shown: hatches, tables and other types the model does not have; the exceptions are refuted."
  },
  {
   "property": "C71",
   "status": "partial",
   "theorems": [
    "C71_reading_dimensions",
    "C71_documented_dimensions_accepted",
    "C71_unannounced_dimensions_skipped",
    "C71_two_line_angular_refuted",
    "C71_writing_dimensions"
   ],
   "note": "Shown for the five kinds the library has. The sixth kind of the reference, between two lines, is refuted; extension data groups and extended data among the pairs are left out."
  }
 ]
}