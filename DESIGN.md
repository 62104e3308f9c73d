# Formal model of dxf-rs: design

## 1. Approach

The model is a set of total Gallina functions, written function by function from
the Rust source in /repo. `&mut self` methods return the new value, `Result` is
`res A := Ok a | Err e`, panics are an explicit error value (`Err Panic`), loops are structural
recursion or fuel with an explicit error (`Err OutOfFuel`) that the theorems exclude; where a loop
of the code really does not end, `OutOfFuel` for every amount of fuel says so (C53).
Each definition cites file and lines of the code it models, and says where it simplifies.

* A Rust `String` is a list of Unicode scalar values (`rstring`), a `Vec<u8>` / file is a list of bytes, both `list N`.
* `i16/i32/i64/u64` are `Z`/`N` with explicit range predicates; casts (`as i16`, `as u8`) are
  explicit wrap-around functions.
* `f64` and `f32` are their bit patterns. Text and narrowing use exact integer arithmetic (round to nearest even).
* The generated code (tables, header, entities, objects) is modelled as an *interpreter* (SpecModel.v, HeaderModel.v)
  of data: `tools/gen_spec.py` translates spec/*.xml to the Coq terms in TableData.v, HeaderData.v,
  EntityData.v and ObjectData.v, and the interpreter models what the generators in build/*.rs emit.
  Hand-written readers and writers of single types (src/entity.rs, src/object.rs) are either expressed in the same data or,
  where they do not fit, functions of their own (CustomModel.v).
  Round-trip theorems are proved once for all data that passes a decidable check (SpecCheck.v, with a proof that the
  check is sound), and the check is evaluated on the real data inside Coq.
* A pair stream is a list of `res pair`: the pairs a reader delivers, with an error where one is malformed. The whole file is
  read and written by FileModel.v (pairs) and SaveModel.v (bytes).
* Reader failures inside an iterator that swallows them: what the reader has consumed by then is derived from the reader itself
  (`after_error`: the shortest beginning of the input on which it already fails).

Layout: `*Model.v` (definitions only), `*Data.v` (generated data), `*Spec.v` (the vocabulary of the statements, independent of the
model's functions), `*Proofs.v` (lemmas), `*Props.v` (the theorems, each with an `Example` that its
hypotheses are met and a `Print Assumptions`). `*Check.v`/`*Witness.v` hold decision procedures and concrete drawings.

`_partial` in a name: the statement of the property is restricted, the comment says by what. `_refuted`: the statement, or a natural reading of it,
is false of the code; the theorem exhibits a case.

## 2. Properties

The statements are in properties.jsonl, the exact coverage of each in MANIFEST.json.

| id | status | what is modelled | how proved | theorems |
|----|--------|------------------|------------|----------|
| C01 | proved | escape_control_characters, un_escape_string | induction on the string, two-state decoder | TextProps.v: `control_characters_roundtrip`, `escape_is_caret_notation` |
| C02 | proved | the same, escape_unicode_to_ascii, the writers | Forall over the output, case analysis on the character | TextProps.v: `text_framing`, `binary_framing` |
| C03 | partial | escape_unicode_to_ascii, un_escape_ascii_to_unicode | induction with a window lemma; an exact condition | TextProps.v: `unicode_refuted`, `unicode_roundtrip_partial`, `plain_text_roundtrip_partial`, `exact_condition` |
| C04 | partial | Display of integers, parse_i16/i32/i64 | induction on decimal digits; i16 by exact parsing as a double | TextProps.v: `i32_roundtrip`, `i64_roundtrip`, `i16_roundtrip_partial`, `i16_range_refuted` |
| C05 | partial | Handle::as_string, as_handle, parse_hex_string | induction on base-16 digits | TextProps.v: `handle_roundtrip`, `handle_texts_distinct`, `handle_spellings_partial`, `leading_zeros_refuted` |
| C06 | proved | `{:02X}` and parse_hex_string | induction on bytes | TextProps.v: `binary_roundtrip` |
| C07 | proved | format_f64, parse_f64 on bit patterns | exact rational arithmetic on Z | TextProps.v: `exact_binary_fractions`, `nearest_of_twelve_decimals`, `second_save_is_stable`, `identity_refuted` |
| C08 | proved | ExpectedType::new, both readers | case analysis; table against an independent list of ranges | CodePairProps.v: `delivered_pairs_are_typed`, `type_table_is_the_documented_one`, `ranges_do_not_overlap`, `unknown_code_is_an_error` |
| C09 | partial | write_ascii_code_pair, read_line, TextCodePairIter | induction on the pair list | CodePairProps.v: `text_stream_roundtrip_partial` |
| C10 | partial | write_binary_code_pair, BinaryCodePairIter | induction on the pair list, per format | CodePairProps.v: `binary_stream_roundtrip_partial`, `binary_string_refuted`, `binary_chunk_refuted`, `binary_bool_refuted` |
| C11 | partial | read_line and load_bytes | induction on lines; simulation of the readers for the drawing loaded | BytesProps.v, CodePairProps.v: `loading_line_ends_partial`, `line_end_style_partial`, `blanks_do_not_matter`, `double_cr_refuted` |
| C12 | proved | both iterators as functions from bytes to steps | strict decrease of the remaining length | CodePairProps.v: `reading_terminates`, `every_pair_consumes` |
| C13 | partial | offset bookkeeping | invariant over the iteration | CodePairProps.v: `text_positions`, `binary_positions_partial`, `binary_positions_refuted` |
| C14 | proved | CodePairPutBack and comments; load_bytes | refinement to a filtered list, for any reader of the stream; for bytes a relation between readers that stand at corresponding lines of the two files | CommentProps.v, StreamProps.v: `comments_in_files`, `comment_encoding_refuted`, `comments_are_invisible` |
| C15 | proved | CodePairPutBack | refinement to a plain list | StreamProps.v: `putback_is_a_list`, `nothing_lost_duplicated_or_reordered`, `handed_back_is_next` |
| C16 | partial | ExtensionGroup reader and writer | mutual induction on trees | ExtDataProps.v: `extension_groups_roundtrip_partial`, `empty_group_refuted` |
| C17 | proved | XData reader and writer | mutual induction on trees | ExtDataProps.v: `extended_data_roundtrip`, `not_written_before_r2000`, `codes` |
| C18 | proved | the same readers on arbitrary input | fuel measure, induction on the stream | ExtDataProps.v: `success_means_complete`, `not_opened_is_an_error`, `cut_off_is_an_error`, `cut_off_xdata_is_an_error`, `reading_groups_terminates` |
| C19 | proved | all operations of Drawing | invariant over histories | DrawingProps.v: `handles_unique`, `never_reused`, `cloned_children_refuted`, `block_members_refuted` |
| C20 | proved | item_by_handle | invariant, case analysis per collection | DrawingProps.v: `items_are_found`, `only_those`, `zero_finds_nothing`, `added_is_found` |
| C21 | proved | remove_* | list lemmas for twelve collections | DrawingProps.v: `remove_table`, `remove_others` |
| C22 | proved | normalize | invariants through its steps | DrawingProps.v: `tables`, `rest` |
| C23 | proved | normalize | equational reasoning about a second and third run | DrawingProps.v: `idempotent_refuted`, `second_time`, `third_time` |
| C24 | proved | add_entity, add_object, add_block, add_layer | case analysis per reference | DrawingProps.v: `entity_references`, `object_references`, `block_references`, `block_record_refuted`, `layer_references` |
| C25 | proved | clear | case analysis | DrawingProps.v: `clear`, `like_empty`, `header_refuted` |
| C26 | partial | save's pairs, all writers | grammar of sections, induction over writers' data by a checked table | StructureProps.v: `sections_partial`, `section_entity_refuted`, `class_name_refuted`, `extension_group_refuted` |
| C27 | proved | read_sections, swallow_section | fuel-independent reading, induction on the body | SkipProps.v: `unknown_section`, `unknown_section_ascii` |
| C28 | proved | read_entities, read_objects, read_table, read_block | induction on item sequences | SkipProps.v: `unknown_entities`, `unknown_entities_in_block`, `unknown_objects`, `unknown_tables` |
| C29 | partial | collect_entities, add_code_pairs | induction on the entity list | CollectProps.v: `nothing_lost`, `polyline_group`, `insert_group`, `regroup_before_r13`, `regroup_since_r13_partial`, `insert_attributes_refuted` |
| C30 | partial | EntityIter, ObjectIter and what they leave | a failing reader takes at most the first malformed pair | BlockErrorProps.v, ErrorProps.v: `block_entities_kept_partial`, `entities_partial`, `objects_partial`, `block_heads_partial`, `other_sections`, `last_pair_refuted`, `vertex_refuted`, `block_refuted` |
| C31 | partial | spec interpreter on the tables | generic round trip, check evaluated on the data | TableProps.v: `entries_survive_partial`, `owner_refuted`, `separator_refuted`, `wide_integer_refuted` |
| C32 | proved | header interpreter | per-variable check evaluated on the data | HeaderProps.v: `header_survives`, `lossy_fields_survive_if_representable`, `r11_refuted`, `dimension_fit_refuted`, `halo_gap_refuted`, `clipping_refuted`, `wide_integers_refuted`, `unknown_variables_skipped`, `wrong_code_is_an_error` |
| C33 | proved | spec interpreter on the entities | generic round trip, check evaluated on the data; a witness per exception | EntityProps.v: `entities_survive`, `flawless_entities`, `exceptions_refuted`, `rotated_dimension_refuted`, `wide_integers_refuted` |
| C34 | proved | spec interpreter on the objects | the same | ObjectProps.v: `objects_survive`, `flawless_objects`, `exceptions_refuted`, `wide_integers_refuted` |
| C35 | proved | flag accessors | N.testbit algebra, check on data generated from the sources | BitsProps.v: `flags_read_as_last_set`, `other_bits_untouched`, `word_stays_i32`, `proxy_version_refuted`, `proxy_release_refuted` |
| C36 | proved | dimension words | case analysis over ranges | BitsProps.v: `dimension_word_roundtrip`, `dimension_word_meaning`, `stored_word_kept` |
| C37 | partial | Color | case analysis over ranges | BitsProps.v: `one_kind`, `one_kind_refuted`, `index_roundtrip`, `index_is_faithful`, `index_zero_refuted`, `layer_color_roundtrip`, `layer_visibility`, `layer_color_zero_refuted`, `layer_color_panics_refuted` |
| C38 | proved | AcadVersion | case analysis | StreamProps.v: `version_text_roundtrip`, `r11_reads_as_r12`, `version_order`, `version_texts_distinct` |
| C39 | proved | thumbnail | list algebra, little-endian encoding | ThumbnailProps.v: `header_rebuilt`, `thumbnail_roundtrip`, `lines_are_short`, `large_header_refuted` |
| C40 | partial | DxbWriter, DxbReader | induction on items; an independent notion of nearest single | DxbProps.v: `entities_partial`, `singles_exact_partial`, `with_block_refuted`, `blocks_alone_refuted`, `height_refuted`, `bulge_refuted`, `layer_refuted` |
| C41 | proved | combine_points | induction | GeometryProps.v: `points_recombined`, `flat_points_recombined`, `points_by_position` |
| C42 | proved | TransformationMatrix | computation with abstract values | GeometryProps.v: `matrix_roundtrip`, `values_roundtrip`, `any_list`, `spatial_filter_matrix_refuted`, `spatial_filter_matrix` |
| C43 | partial | Class reader and writer | generic round trip, two layouts | BlockProps.v: `classes_roundtrip_partial`, `endsec_refuted` |
| C44 | partial | Block reader and writer | composition of C33 with the block loop | BlockProps.v: `blocks_roundtrip_partial`, `extended_data_refuted`, `extension_group_refuted` |
| C45 | proved | Dictionary objects | induction on entries, sorted order; for reading, induction on the pairs against DictSpec.v | CustomProps.v, DictProps.v: `dictionary_survives`, `dictionary_with_default_survives`, `written_order_is_fixed`, `keys_increase`, `hard_owner_refuted`, `reading_dictionaries`, `reading_dictionaries_with_default`, `reading_dictionary_fields`, `reading_dictionary_default` |
| C46 | partial | custom objects | induction per list | ColumnProps.v, CustomProps.v, RowProps.v, XrecProps.v: `reading_data_tables`, `lists_of_the_xml_file_survive`, `lists_of_the_xml_file_refuted`, `xrecord_data_partial`, `xrecord_refuted`, `xrecord_zero_refuted`, `data_table_partial`, `data_table_values_refuted`, `data_table_write_panic_refuted`, `data_table_read_panic_refuted`, `section_settings_partial`, `section_settings_merge_refuted`, `section_settings_hang_refuted`, `table_style_partial`, `table_style_old_refuted`, `table_style_cells_refuted`, `spatial_filter_partial`, `spatial_filter_refuted`, `spatial_filter_matrices_written`, `sun_study_partial`, `sun_study_dates_refuted`, `data_table_first_row_only`, `reading_xrecords`, `xrecord_rule_refuted` |
| C47 | proved | pointer accessors | lookup lemmas | DrawingProps.v: `set_then_get`, `wrong_kind_is_an_error`, `right_kind`, `list` |
| C48 | partial | load, save, save_binary | composition of all round trips with C09/C10 | SaveProps.v: `save_load_text_partial`, `save_load_binary_partial`, `pairs_partial`, `default_header_refuted`, `child_handles_refuted`, `insert_attributes_refuted`, `mline_style_refuted`, `comment_pairs_refuted` |
| C49 | partial | version gates | Forall over written pairs, checked data | StructureProps.v: `old_versions_partial`, `markers_refuted`, `tables_and_classes_refuted` |
| C50 | partial | date conversion | exact arithmetic on doubles | DateProps.v: `date_roundtrip`, `stored_value`, `early_dates_clamped`, `reading_in_range`, `exact_roundtrip_refuted`, `no_drift_refuted`, `never_fails_refuted`, `infinities_refuted`, `late_dates_refuted`, `duration_roundtrip`, `long_duration_refuted` |
| C51 | proved | LwPolyline | instance of C33 | EntityProps.v: `vertices_survive`, `any_vertices` |
| C52 | proved | uuid text | induction on digits | UuidProps.v: `written_form`, `uuid_roundtrip`, `accepted_forms`, `other_text_is_nil` |
| C53 | partial | load and load_dxb | decreasing length of what is left, for arbitrary input | BytesProps.v, DxbProps.v, LoadProps.v: `files_end_partial`, `dxb_ends`, `load_ends_partial`, `block_ends_partial`, `open_block_refuted` |
| C54 | partial | load and load_dxb | errors of every reader are reports or its own | BytesProps.v, DxbProps.v, LoadProps.v: `files_do_not_panic_partial`, `dxb_does_not_panic`, `load_does_not_panic_partial`, `load_refuted` |
| C55 | partial | save's pairs | check on the data, induction for the custom writers | StructureProps.v: `types_partial`, `sun_study_refuted` |
| C56 | partial | save_text, save_binary, load_bytes | both files give back the pairs written, load is a function of them | BytesProps.v: `text_and_binary_agree_partial`, `new_drawing_refuted` |
| C57 | partial | load_bytes | simulation of the readers of the two encodings, line by line | BytesProps.v: `plain_files_partial`, `backslash_refuted` |
| C58 | partial | load_bytes, load_dxb | what is accepted does not depend on what follows (DXB); every section passed is closed (DXF) | CutProps.v: `dxb`, `sections_are_closed_partial`, `between_sections_refuted` |
| C59 | partial | load_bytes, all readers of items, add_*, normalize | handles come from 5 and 105 pairs outside the header or from the counter, which only grows: invariant of the readers with a predicate on handles; for drawings made by adding and removing, then saved and loaded, the pairs of the file are shown to hold only handles of the drawing, all below the counter in the header, which comes back | HandleProps.v, SavedHandleProps.v: `handles_are_free_partial`, `no_seed_refuted`, `saved_and_loaded_text_partial`, `saved_and_loaded_binary_partial` |
| C60 | proved | load_bytes with all readers, load_dxb, add_*, remove_*, normalize, clear, save_text, save_binary | an invariant on the shapes of all fields, computed from the commands of the writers and checked against the arms of the readers by computation; closed under every operation | StorableProps.v: `saving_made_drawings`, `loaded_to_any_version`, `any_file_refuted` |
| C61 | partial | read_entity, read_item, write_entity, write_typed, write_titem over EntityData.v, ObjectData.v and TableData.v | a table written from the reference (DocSpec.v, RestSpec.v); that a specification has exactly one arm and one command per row is checked by computation, and the check is sound for all sequences of pairs by induction. Layouts (LayoutSpec.v) and attributes (AttribSpec.v) as dimensions in C71, in two phases | AttribProps.v, DocProps.v, LayoutProps.v, RestProps.v, SortProps.v: `reading_attributes`, `reading_attribute_records`, `documented_attributes_accepted`, `documented_attribute_records_accepted`, `writing_attributes`, `attribute_lock_refuted`, `reading_entities`, `documented_entities_accepted`, `reading_tables`, `documented_tables_accepted`, `writing_entities`, `writing_tables`, `reading_objects`, `documented_objects_accepted`, `writing_objects`, `dimension_lines_refuted`, `dimstyle_handle_refuted`, `zero_suppression_refuted`, `wipeout_refuted`, `material_refuted`, `fog_refuted`, `reading_layouts`, `writing_layouts`, `layout_setup_refuted`, `reading_rest_entities`, `documented_rest_accepted`, `writing_rest_entities`, `reading_rest_objects`, `writing_rest_objects`, `proxy_owner_refuted`, `reading_r2000_texts`, `documented_r2000_texts_accepted`, `writing_r2000_texts`, `sort_owner_refuted` |
| C62 | partial | read_header, set_header_value, write_header over HeaderData.v | as C61, tracking the last value of the variable through the loop; two passes because of the switch to UTF-8 | DocProps.v: `reading_variables`, `documented_variables_accepted`, `writing_variables`, `nonzero_refuted`, `zero_suppression_refuted` |
| C63 | proved | load_bytes with all readers | every reader is local: what it returns depends on the pairs it took and at most one more (LocalProofs.v, by induction for each reader); the readers of a file and of the longer one go in step up to the mark | TrailerProps.v: `text_trailer`, `saved_text_trailer`, `binary_trailer`, `saved_binary_trailer`, `no_mark_refuted` |
| C64 | proved | load, load_bytes with the readers of all sections | each section's reader is a list of items put one by one into the drawing, the list depending on the drawing only through its version (section_effect); read sections are exact by locality (C63), so the files compose; induction over the list of sections | SectionsProps.v: `sections_apart`, `binary_sections_apart`, `text_sections_apart`, `any_order`, `tables_last_refuted` |
| C65 | proved | read_entity, read_object, read_item of table items over EntityData.v, ObjectData.v, TableData.v; load, load_bytes | reading an item outside of groups is a fold over its pairs; for types whose arms have no conditions and write each field under one code only (computed for all types) the fold restricted to a field depends on the pairs of one code; two files with such entities are read in lockstep (OrderFileProofs.v) | OrderProps.v: `entities_any_order`, `ordered_entities_refuted`, `objects_any_order`, `ordered_objects_refuted`, `table_items_any_order`, `shared_codes_refuted`, `files_any_order`, `binary_files_any_order`, `text_files_any_order` |
| C66 | proved | as C65 | a pair without an arm leaves the fold as it is; the codes with an arm are those listed in OrderSpec.v (computed for all types); files as in C65 | OrderProps.v: `entities_ignore_other_codes`, `objects_ignore_other_codes`, `table_items_ignore_other_codes`, `files_ignore_other_codes`, `binary_files_ignore_other_codes`, `text_files_ignore_other_codes` |
| C67 | proved | write_item, read_item over EntityData.v, ObjectData.v, TableData.v, SectionData.v | from C31, C33, C34: a command writes the same if the fields it writes and those its conditions look at come back; computed for all types and versions (StableProofs.v `again`, sound by induction over commands); every remaining type has a witness that differs | StableProps.v: `entities_written_again`, `entities_refuted`, `objects_written_again`, `objects_refuted`, `table_items_written_again`, `view_port_ucs_refuted`, `block_heads_written_again`, `classes_written_again` |
| C68 | proved | load_bytes, load_dxb, put_*, push_*, add_*, ensure_*, normalize | the property is kept by growing tables and by each addition, so by every effect of a section (SectionsProofs.v), induction over sections and over histories of additions; normalizing by C22's description of it | RefProps.v: `loaded_complete`, `added_complete`, `new_complete`, `removed_refuted`, `members_and_inserts_refuted`, `mline_style_names` |
| C69 | proved | code_pairs with all write_* functions, add_*, remove_*, next_handle | every item is a 0 pair, its handle and pairs of other codes (computed for the commands of all types), so the declared handles of the parts append; those of a drawing are within the handles of C19, which differ; hexadecimal strings are injective (C05) | HandleFileProps.v: `handles_written`, `handles_differ`, `seed`, `block_ends_refuted`, `attribute_texts_refuted`, `block_members_refuted` |
| C70 | partial | read_item, write_item, post-parse combination of points, over EntityData.v, ObjectData.v, TableData.v | which arms push onto a list and which write commands give its codes is computed for every listed type (ListProofs.v); induction over the pairs for reading, over the elements for writing; ListSpec.v gives the codes from the DXF reference, the exceptions are refuted. Binary data: PieceSpec.v says which fields the pairs 310 belong to, for every type of entity. Vertices of lightweight polylines: VertexSpec.v divides the pairs at every 10; invariant of the fold over pairs for a vertex under construction | ListProps.v, PieceProps.v, RestProps.v, SortProps.v, VertexProps.v: `reading_entity_lists_partial`, `reading_object_lists_partial`, `reading_table_lists_partial`, `writing_entity_lists_partial`, `writing_object_lists_partial`, `writing_table_lists_partial`, `written_elsewhere_refuted`, `wipeout_refuted`, `reading_binary_data`, `writing_binary_data`, `reading_object_binary_data`, `writing_object_binary_data`, `reading_macros`, `frame_preview_refuted`, `reading_proxy_lists`, `writing_proxy_lists_partial`, `proxy_owner_listed_refuted`, `reading_proxy_identifiers`, `proxy_object_owner_refuted`, `reading_sort_tables`, `writing_sort_tables`, `reading_vertices`, `writing_vertices`, `vertex_not_begun` |
| C71 | partial | read_entity for DIMENSION, read_dimension, write_entity over the five dimension types of EntityData.v | the run of the reader has two phases, in each of which the arms whose guards hold are fixed (computed for each type and kind); induction over the pairs of each phase. DimensionSpec.v gives markers and codes from the DXF reference. For writing the commands are divided at the marker | DimensionProps.v: `reading_dimensions`, `documented_dimensions_accepted`, `unannounced_dimensions_skipped`, `two_line_angular_refuted`, `writing_dimensions` |

## 3. Trusted base

* Coq 8.16.1's kernel, including `vm_compute`. No axioms, of the standard library or otherwise (section 5).
* That the Gallina definitions say what the Rust code does. This is by inspection; the citations are there to check it.
* That `tools/gen_spec.py` and `tools/gen_flags.py` translate spec/*.xml, src/entity.rs and src/object.rs as they should. The generated files are
  committed; the build does not run the tools.

Modelled (file by file):

| source | modelled | in |
|--------|----------|----|
| src/code_pair.rs, code_pair_value.rs, expected_type.rs | constructors, types per code, `Display`, escapes, assertions | TextModel, CodePairModel |
| src/code_pair_iter.rs, helper_functions.rs `read_line` | text and binary iterators, offsets, switch to UTF-8 | CodePairModel |
| src/code_pair_put_back.rs | push-back stack, comments | StreamModel |
| src/code_pair_writer.rs | text and both binary forms | CodePairModel |
| src/helper_functions.rs | number parsing and formatting, dates, uuids, hex, matrices of points, defaults | TextModel, F64Model, DateModel, UuidModel, GeometryModel |
| src/handle.rs, color.rs, line_weight.rs, enums.rs | handles, colours, enum conversions | TextModel, BitsModel, EnumData |
| src/extension_data.rs, x_data.rs | all | ExtDataModel |
| src/drawing.rs | all but the file system: adding, removing, normalizing, lookup, clear, load, save | DrawingModel, FileModel, SaveModel |
| src/drawing_item.rs, pointers | handle lookup, generated accessors | DrawingModel |
| src/entity.rs, entity_iter.rs, build/entity_generator.rs | all types; readers, writers, gathering of vertices and attributes | SpecModel, EntityData, CollectModel, FileModel |
| src/object.rs, object_iter.rs, build/object_generator.rs, data_table_value.rs, section_*_settings.rs, table_cell_style.rs | all types | SpecModel, ObjectData, CustomModel |
| src/table.rs, build/table_generator.rs | the nine tables | SpecModel, TableData, FileModel |
| src/header.rs, build/header_generator.rs | all variables | HeaderModel, HeaderData |
| src/block.rs, class.rs | all | SectionData, FileModel |
| src/thumbnail.rs | the bytes; not the image decoding | ThumbnailModel |
| src/transformation_matrix.rs, point.rs, vector.rs | construction and serialization | GeometryModel, CustomModel |
| src/dxb_reader.rs, dxb_writer.rs, dxb_item_type.rs | all | DxbModel, F32Model |

Not modelled: the file system and `BufReader`/`BufWriter` (a file is its bytes); `encoding_rs` beyond Windows-1252, UTF-8 and byte order marks (a line that is not
valid UTF-8 is an error, as in the code); the `image` crate (a thumbnail is its
bitmap bytes); `chrono` beyond the proleptic Gregorian calendar and local = UTC; `Uuid::new_v4` and the current time (an environment the theorems quantify over);
`serde`; `Display`/`Error` of `DxfError`; the iteration order of hash sets and maps (quantified over); memory limits. The 64-bit handle counter is unbounded in the
operations of DrawingModel.

## 4. Findings

Where the code does not do what its users would expect. Each is a theorem ending in `_refuted` unless marked *by reading*.

Text and numbers
* Text before R2007: a string that contains `\U+` or ends in a partial escape is not read back (C03); the same name reads differently under UTF-8 (C57).
* 16-bit integers out of range are clamped silently when read (C04). Handles of more than 16 hex digits lose their leading ones (C05).
* Doubles are written with twelve decimals, so most do not come back exactly; in particular angles of a default header (C07, C48, C56).
* Binary files: strings containing NUL, binary chunks above 255 bytes and booleans above one are not read back (C10).
* Two carriage returns before a line feed shift lines (C11). A comment that is not UTF-8 makes a file from 2007 on unreadable (C14). Offsets of binary files are two too small (C13).
* Dates: the round trip is to within one second, and repeated saving can move a date by several seconds; infinities, dates after 9999 or so and some long durations panic or are wrong (C50).

Extension data
* An empty extension group is lost (C16).

Drawings
* Cloning a polyline and adding it again gives two sets of vertices with the same handles; members of blocks get no SEQEND handle (C19).
* Normalizing is not idempotent: the z spacings of the view port `*ACTIVE` change the second time (C23). `normalize` duplicates block records (C24). `clear` keeps the header (C25).
* Reading never moves the handle counter beyond the handles read, so the layers and line types made while loading, and items added later, can share handles with existing ones (C59; src/drawing.rs 1065-1089).

Files
* Section entities are written as 0/SECTION, classes named ENDSEC (to R13) and caller-supplied 0 pairs look like structure (C26, C43, C44).
* CLASSES and subclass markers are written for versions that have none (C49).
* Errors inside entities and objects end the iteration silently: the last pair of a section, a vertex, anything in a block (C30).
* A file cut between two sections loads as if the rest had never been (C58).
* Tables that come after the entities give the layers in use twice (C64).
* Types whose pairs depend on their order, among them fields with two codes of which the last one wins (C65).
* A BLOCK that is not closed before the end of the section makes the reader loop forever (C53), and so do section settings without end (C46).
* Certain dates, colours, data tables, thumbnails and hours panic the reader (C54, C37, C39, C46).
* A data table without rows, or with a value in a column without a name, loads but makes every save from R2007 on panic (C60; src/object.rs 1490-1542).
* The hours of a SunStudy are 16-bit integers under the boolean code 290 (C55).

Items
* Dimension styles: 281 and 282 (DIMSD1, DIMSD2) are taken for 75 and 76 (DIMSE1, DIMSE2), the handle under 105 is not read, values of DIMZIN above 3 become 0 (C61).
* Wipeouts: the y coordinates of the clipping boundary (24) are not read, so the boundary is lost (C61; spec/EntitiesSpec.xml gives them code 12).
* Underlays: the y coordinates of the clipping boundary are written under 12 instead of 21, so the boundary is lost. Multi-lines: vertices, segment and miter directions are read from 11, 12, 13 but written to 10, 11, 12, so the directions come back as vertices (C70; spec/EntitiesSpec.xml:657-690).
* Attributes and attribute definitions: R2007 files have the lock (280) but not the version (280 from R2010), and the reader takes the first 280 for the version:
  a locked attribute comes back unlocked (C61, C33; src/entity.rs:805-950, spec/EntitiesSpec.xml:196, 271).
* Sort tables: the block (330 behind the marker) takes the place of the owner (330 before it), which is not written again (C61; src/object.rs:1147-1185).
* Proxy entities and proxy objects: the owner (330) is read as one of the identifiers and written among them; the owner itself stays 0 (C61, C70; spec/EntitiesSpec.xml:99).
* OLE frames and proxies: the preview of the entity (310) is written before their own data (310 too) and read as part of it (C70; spec/EntitiesSpec.xml:7-50, 802-825).
* Layouts: the page setup (the pairs before AcDbLayout: paper, margins, printer) is neither kept nor written (C61; src/object.rs:511-525).
* Materials: the file of the specular map (4) is read as that of the normal map, and the gloss factor (44) is never written. Fog: the three values of the colour (280) are all taken for red, likewise the other repeated codes of render environments and settings (C61; src/object.rs:700, spec/ObjectsSpec.xml:409).
* Header: flags that are documented as "nonzero" are off for any value but 1; values of $DIMZIN above 3 become 0 (C62).
* Layers: the flags for frozen and locked layers (70) are neither read nor written (*by reading*; spec/TableSpec.xml).
* Table entries: the owner is never written; separator characters above 255 and integers beyond their code are cut (C31).
* View ports: since R2007 the own UCS is written if `has_own_ucs` is set but the flag itself is not, so the UCS is lost when the file is saved a second time (C67).
* Angular dimensions between two lines (AcDb2LineAngularDimension) are not read; nor is any dimension without a subclass marker (C71; src/entity.rs:526-600).
* Header: R11 reads as R12, DIMATFIT, HALOGAP and XCLIPFRAME do not survive, wide integers are cut (C32).
* Entities: twenty exceptions, listed in EntityProps.v; rotated dimensions vanish before R13 (C33). Inserts with attributes fall apart from R13 on (C29, C48). The common
  properties of vertices and attributes, and their handles, are lost (C48). Multi-line styles are referred to twice (C48).
* Objects: light lists, id buffers, section managers, multi-line styles, x-records, data tables, section settings, table styles, spatial filters and sun studies lose data (C34, C42, C45, C46).
  Of every data table that is read, only the first row can have values (C46_data_table_first_row_only).
* Blocks: extended data and the handles of members are lost (C44).
* Handles: ENDBLK repeats the handle of its BLOCK, which itself gives none before R13; the text of an attribute is written with handle 0; the vertices and the end of a polyline inside
  of a block are written with the handles FFFFFFFFFFFFFFFF and 0 (C69; src/block.rs:199-260, src/entity.rs:1595-1612).
* References: the styles of entities inside blocks and the blocks that inserts name are not made when they are missing; a multi-line style gets a line type and a text style of its own
  name instead of the line types of its elements (C68; src/drawing.rs:839-843, 865-869).
* Proxy version accessors write the wrong half of the word (C35). Index 0 and raw values above 257 are no colour, or two (C37).
* DXB: a drawing with blocks is unreadable or loses its entities; heights, bulges and layer names beyond Latin-1 are lost (C40). `read_u` multiplies by 65536 where the
  format divides, `read_w` also scales widths (*by reading*; src/dxb_reader.rs).

## 5. Assumptions per theorem

`Print Assumptions` of all 372 theorems says "Closed under the global context".

```
C01_control_characters_roundtrip (TextProps.v): Closed under the global context
C01_escape_is_caret_notation (TextProps.v): Closed under the global context
C02_text_framing (TextProps.v): Closed under the global context
C02_binary_framing (TextProps.v): Closed under the global context
C03_unicode_refuted (TextProps.v): Closed under the global context
C03_unicode_roundtrip_partial (TextProps.v): Closed under the global context
C03_plain_text_roundtrip_partial (TextProps.v): Closed under the global context
C03_exact_condition (TextProps.v): Closed under the global context
C04_i32_roundtrip (TextProps.v): Closed under the global context
C04_i64_roundtrip (TextProps.v): Closed under the global context
C04_i16_roundtrip_partial (TextProps.v): Closed under the global context
C04_i16_range_refuted (TextProps.v): Closed under the global context
C05_handle_roundtrip (TextProps.v): Closed under the global context
C05_handle_texts_distinct (TextProps.v): Closed under the global context
C05_handle_spellings_partial (TextProps.v): Closed under the global context
C05_leading_zeros_refuted (TextProps.v): Closed under the global context
C06_binary_roundtrip (TextProps.v): Closed under the global context
C07_exact_binary_fractions (TextProps.v): Closed under the global context
C07_nearest_of_twelve_decimals (TextProps.v): Closed under the global context
C07_second_save_is_stable (TextProps.v): Closed under the global context
C07_identity_refuted (TextProps.v): Closed under the global context
C08_delivered_pairs_are_typed (CodePairProps.v): Closed under the global context
C08_type_table_is_the_documented_one (CodePairProps.v): Closed under the global context
C08_ranges_do_not_overlap (CodePairProps.v): Closed under the global context
C08_unknown_code_is_an_error (CodePairProps.v): Closed under the global context
C09_text_stream_roundtrip_partial (CodePairProps.v): Closed under the global context
C10_binary_stream_roundtrip_partial (CodePairProps.v): Closed under the global context
C10_binary_string_refuted (CodePairProps.v): Closed under the global context
C10_binary_chunk_refuted (CodePairProps.v): Closed under the global context
C10_binary_bool_refuted (CodePairProps.v): Closed under the global context
C11_loading_line_ends_partial (BytesProps.v): Closed under the global context
C11_line_end_style_partial (CodePairProps.v): Closed under the global context
C11_blanks_do_not_matter (CodePairProps.v): Closed under the global context
C11_double_cr_refuted (CodePairProps.v): Closed under the global context
C12_reading_terminates (CodePairProps.v): Closed under the global context
C12_every_pair_consumes (CodePairProps.v): Closed under the global context
C13_text_positions (CodePairProps.v): Closed under the global context
C13_binary_positions_partial (CodePairProps.v): Closed under the global context
C13_binary_positions_refuted (CodePairProps.v): Closed under the global context
C14_comments_in_files (CommentProps.v): Closed under the global context
C14_comment_encoding_refuted (CommentProps.v): Closed under the global context
C14_comments_are_invisible (StreamProps.v): Closed under the global context
C15_putback_is_a_list (StreamProps.v): Closed under the global context
C15_nothing_lost_duplicated_or_reordered (StreamProps.v): Closed under the global context
C15_handed_back_is_next (StreamProps.v): Closed under the global context
C16_extension_groups_roundtrip_partial (ExtDataProps.v): Closed under the global context
C16_empty_group_refuted (ExtDataProps.v): Closed under the global context
C17_extended_data_roundtrip (ExtDataProps.v): Closed under the global context
C17_not_written_before_r2000 (ExtDataProps.v): Closed under the global context
C17_codes (ExtDataProps.v): Closed under the global context
C18_success_means_complete (ExtDataProps.v): Closed under the global context
C18_not_opened_is_an_error (ExtDataProps.v): Closed under the global context
C18_cut_off_is_an_error (ExtDataProps.v): Closed under the global context
C18_cut_off_xdata_is_an_error (ExtDataProps.v): Closed under the global context
C18_reading_groups_terminates (ExtDataProps.v): Closed under the global context
C19_handles_unique (DrawingProps.v): Closed under the global context
C19_never_reused (DrawingProps.v): Closed under the global context
C19_cloned_children_refuted (DrawingProps.v): Closed under the global context
C19_block_members_refuted (DrawingProps.v): Closed under the global context
C20_items_are_found (DrawingProps.v): Closed under the global context
C20_only_those (DrawingProps.v): Closed under the global context
C20_zero_finds_nothing (DrawingProps.v): Closed under the global context
C20_added_is_found (DrawingProps.v): Closed under the global context
C21_remove_table (DrawingProps.v): Closed under the global context
C21_remove_others (DrawingProps.v): Closed under the global context
C22_tables (DrawingProps.v): Closed under the global context
C22_rest (DrawingProps.v): Closed under the global context
C23_idempotent_refuted (DrawingProps.v): Closed under the global context
C23_second_time (DrawingProps.v): Closed under the global context
C23_third_time (DrawingProps.v): Closed under the global context
C24_entity_references (DrawingProps.v): Closed under the global context
C24_object_references (DrawingProps.v): Closed under the global context
C24_block_references (DrawingProps.v): Closed under the global context
C24_block_record_refuted (DrawingProps.v): Closed under the global context
C24_layer_references (DrawingProps.v): Closed under the global context
C25_clear (DrawingProps.v): Closed under the global context
C25_like_empty (DrawingProps.v): Closed under the global context
C25_header_refuted (DrawingProps.v): Closed under the global context
C26_sections_partial (StructureProps.v): Closed under the global context
C26_section_entity_refuted (StructureProps.v): Closed under the global context
C26_class_name_refuted (StructureProps.v): Closed under the global context
C26_extension_group_refuted (StructureProps.v): Closed under the global context
C27_unknown_section (SkipProps.v): Closed under the global context
C27_unknown_section_ascii (SkipProps.v): Closed under the global context
C28_unknown_entities (SkipProps.v): Closed under the global context
C28_unknown_entities_in_block (SkipProps.v): Closed under the global context
C28_unknown_objects (SkipProps.v): Closed under the global context
C28_unknown_tables (SkipProps.v): Closed under the global context
C29_nothing_lost (CollectProps.v): Closed under the global context
C29_polyline_group (CollectProps.v): Closed under the global context
C29_insert_group (CollectProps.v): Closed under the global context
C29_regroup_before_r13 (CollectProps.v): Closed under the global context
C29_regroup_since_r13_partial (CollectProps.v): Closed under the global context
C29_insert_attributes_refuted (CollectProps.v): Closed under the global context
C30_block_entities_kept_partial (BlockErrorProps.v): Closed under the global context
C30_entities_partial (ErrorProps.v): Closed under the global context
C30_objects_partial (ErrorProps.v): Closed under the global context
C30_block_heads_partial (ErrorProps.v): Closed under the global context
C30_other_sections (ErrorProps.v): Closed under the global context
C30_last_pair_refuted (ErrorProps.v): Closed under the global context
C30_vertex_refuted (ErrorProps.v): Closed under the global context
C30_block_refuted (ErrorProps.v): Closed under the global context
C31_entries_survive_partial (TableProps.v): Closed under the global context
C31_owner_refuted (TableProps.v): Closed under the global context
C31_separator_refuted (TableProps.v): Closed under the global context
C31_wide_integer_refuted (TableProps.v): Closed under the global context
C32_header_survives (HeaderProps.v): Closed under the global context
C32_lossy_fields_survive_if_representable (HeaderProps.v): Closed under the global context
C32_r11_refuted (HeaderProps.v): Closed under the global context
C32_dimension_fit_refuted (HeaderProps.v): Closed under the global context
C32_halo_gap_refuted (HeaderProps.v): Closed under the global context
C32_clipping_refuted (HeaderProps.v): Closed under the global context
C32_wide_integers_refuted (HeaderProps.v): Closed under the global context
C32_unknown_variables_skipped (HeaderProps.v): Closed under the global context
C32_wrong_code_is_an_error (HeaderProps.v): Closed under the global context
C33_entities_survive (EntityProps.v): Closed under the global context
C33_flawless_entities (EntityProps.v): Closed under the global context
C33_exceptions_refuted (EntityProps.v): Closed under the global context
C33_rotated_dimension_refuted (EntityProps.v): Closed under the global context
C33_wide_integers_refuted (EntityProps.v): Closed under the global context
C34_objects_survive (ObjectProps.v): Closed under the global context
C34_flawless_objects (ObjectProps.v): Closed under the global context
C34_exceptions_refuted (ObjectProps.v): Closed under the global context
C34_wide_integers_refuted (ObjectProps.v): Closed under the global context
C35_flags_read_as_last_set (BitsProps.v): Closed under the global context
C35_other_bits_untouched (BitsProps.v): Closed under the global context
C35_word_stays_i32 (BitsProps.v): Closed under the global context
C35_proxy_version_refuted (BitsProps.v): Closed under the global context
C35_proxy_release_refuted (BitsProps.v): Closed under the global context
C36_dimension_word_roundtrip (BitsProps.v): Closed under the global context
C36_dimension_word_meaning (BitsProps.v): Closed under the global context
C36_stored_word_kept (BitsProps.v): Closed under the global context
C37_one_kind (BitsProps.v): Closed under the global context
C37_one_kind_refuted (BitsProps.v): Closed under the global context
C37_index_roundtrip (BitsProps.v): Closed under the global context
C37_index_is_faithful (BitsProps.v): Closed under the global context
C37_index_zero_refuted (BitsProps.v): Closed under the global context
C37_layer_color_roundtrip (BitsProps.v): Closed under the global context
C37_layer_visibility (BitsProps.v): Closed under the global context
C37_layer_color_zero_refuted (BitsProps.v): Closed under the global context
C37_layer_color_panics_refuted (BitsProps.v): Closed under the global context
C38_version_text_roundtrip (StreamProps.v): Closed under the global context
C38_r11_reads_as_r12 (StreamProps.v): Closed under the global context
C38_version_order (StreamProps.v): Closed under the global context
C38_version_texts_distinct (StreamProps.v): Closed under the global context
C39_header_rebuilt (ThumbnailProps.v): Closed under the global context
C39_thumbnail_roundtrip (ThumbnailProps.v): Closed under the global context
C39_lines_are_short (ThumbnailProps.v): Closed under the global context
C39_large_header_refuted (ThumbnailProps.v): Closed under the global context
C40_entities_partial (DxbProps.v): Closed under the global context
C40_singles_exact_partial (DxbProps.v): Closed under the global context
C40_with_block_refuted (DxbProps.v): Closed under the global context
C40_blocks_alone_refuted (DxbProps.v): Closed under the global context
C40_height_refuted (DxbProps.v): Closed under the global context
C40_bulge_refuted (DxbProps.v): Closed under the global context
C40_layer_refuted (DxbProps.v): Closed under the global context
C41_points_recombined (GeometryProps.v): Closed under the global context
C41_flat_points_recombined (GeometryProps.v): Closed under the global context
C41_points_by_position (GeometryProps.v): Closed under the global context
C42_matrix_roundtrip (GeometryProps.v): Closed under the global context
C42_values_roundtrip (GeometryProps.v): Closed under the global context
C42_any_list (GeometryProps.v): Closed under the global context
C42_spatial_filter_matrix_refuted (GeometryProps.v): Closed under the global context
C42_spatial_filter_matrix (GeometryProps.v): Closed under the global context
C43_classes_roundtrip_partial (BlockProps.v): Closed under the global context
C43_endsec_refuted (BlockProps.v): Closed under the global context
C44_blocks_roundtrip_partial (BlockProps.v): Closed under the global context
C44_extended_data_refuted (BlockProps.v): Closed under the global context
C44_extension_group_refuted (BlockProps.v): Closed under the global context
C45_dictionary_survives (CustomProps.v): Closed under the global context
C45_dictionary_with_default_survives (CustomProps.v): Closed under the global context
C45_written_order_is_fixed (CustomProps.v): Closed under the global context
C45_keys_increase (CustomProps.v): Closed under the global context
C45_hard_owner_refuted (CustomProps.v): Closed under the global context
C45_reading_dictionaries (DictProps.v): Closed under the global context
C45_reading_dictionaries_with_default (DictProps.v): Closed under the global context
C45_reading_dictionary_fields (DictProps.v): Closed under the global context
C45_reading_dictionary_default (DictProps.v): Closed under the global context
C46_reading_data_tables (ColumnProps.v): Closed under the global context
C46_lists_of_the_xml_file_survive (CustomProps.v): Closed under the global context
C46_lists_of_the_xml_file_refuted (CustomProps.v): Closed under the global context
C46_xrecord_data_partial (CustomProps.v): Closed under the global context
C46_xrecord_refuted (CustomProps.v): Closed under the global context
C46_xrecord_zero_refuted (CustomProps.v): Closed under the global context
C46_data_table_partial (CustomProps.v): Closed under the global context
C46_data_table_values_refuted (CustomProps.v): Closed under the global context
C46_data_table_write_panic_refuted (CustomProps.v): Closed under the global context
C46_data_table_read_panic_refuted (CustomProps.v): Closed under the global context
C46_section_settings_partial (CustomProps.v): Closed under the global context
C46_section_settings_merge_refuted (CustomProps.v): Closed under the global context
C46_section_settings_hang_refuted (CustomProps.v): Closed under the global context
C46_table_style_partial (CustomProps.v): Closed under the global context
C46_table_style_old_refuted (CustomProps.v): Closed under the global context
C46_table_style_cells_refuted (CustomProps.v): Closed under the global context
C46_spatial_filter_partial (CustomProps.v): Closed under the global context
C46_spatial_filter_refuted (CustomProps.v): Closed under the global context
C46_spatial_filter_matrices_written (CustomProps.v): Closed under the global context
C46_sun_study_partial (CustomProps.v): Closed under the global context
C46_sun_study_dates_refuted (CustomProps.v): Closed under the global context
C46_data_table_first_row_only (RowProps.v): Closed under the global context
C46_reading_xrecords (XrecProps.v): Closed under the global context
C46_xrecord_rule_refuted (XrecProps.v): Closed under the global context
C47_set_then_get (DrawingProps.v): Closed under the global context
C47_wrong_kind_is_an_error (DrawingProps.v): Closed under the global context
C47_right_kind (DrawingProps.v): Closed under the global context
C47_list (DrawingProps.v): Closed under the global context
C48_save_load_text_partial (SaveProps.v): Closed under the global context
C48_save_load_binary_partial (SaveProps.v): Closed under the global context
C48_pairs_partial (SaveProps.v): Closed under the global context
C48_default_header_refuted (SaveProps.v): Closed under the global context
C48_child_handles_refuted (SaveProps.v): Closed under the global context
C48_insert_attributes_refuted (SaveProps.v): Closed under the global context
C48_mline_style_refuted (SaveProps.v): Closed under the global context
C48_comment_pairs_refuted (SaveProps.v): Closed under the global context
C49_old_versions_partial (StructureProps.v): Closed under the global context
C49_markers_refuted (StructureProps.v): Closed under the global context
C49_tables_and_classes_refuted (StructureProps.v): Closed under the global context
C50_date_roundtrip (DateProps.v): Closed under the global context
C50_stored_value (DateProps.v): Closed under the global context
C50_early_dates_clamped (DateProps.v): Closed under the global context
C50_reading_in_range (DateProps.v): Closed under the global context
C50_exact_roundtrip_refuted (DateProps.v): Closed under the global context
C50_no_drift_refuted (DateProps.v): Closed under the global context
C50_never_fails_refuted (DateProps.v): Closed under the global context
C50_infinities_refuted (DateProps.v): Closed under the global context
C50_late_dates_refuted (DateProps.v): Closed under the global context
C50_duration_roundtrip (DateProps.v): Closed under the global context
C50_long_duration_refuted (DateProps.v): Closed under the global context
C51_vertices_survive (EntityProps.v): Closed under the global context
C51_any_vertices (EntityProps.v): Closed under the global context
C52_written_form (UuidProps.v): Closed under the global context
C52_uuid_roundtrip (UuidProps.v): Closed under the global context
C52_accepted_forms (UuidProps.v): Closed under the global context
C52_other_text_is_nil (UuidProps.v): Closed under the global context
C53_files_end_partial (BytesProps.v): Closed under the global context
C53_dxb_ends (DxbProps.v): Closed under the global context
C53_load_ends_partial (LoadProps.v): Closed under the global context
C53_block_ends_partial (LoadProps.v): Closed under the global context
C53_open_block_refuted (LoadProps.v): Closed under the global context
C54_files_do_not_panic_partial (BytesProps.v): Closed under the global context
C54_dxb_does_not_panic (DxbProps.v): Closed under the global context
C54_load_does_not_panic_partial (LoadProps.v): Closed under the global context
C54_load_refuted (LoadProps.v): Closed under the global context
C55_types_partial (StructureProps.v): Closed under the global context
C55_sun_study_refuted (StructureProps.v): Closed under the global context
C56_text_and_binary_agree_partial (BytesProps.v): Closed under the global context
C56_new_drawing_refuted (BytesProps.v): Closed under the global context
C57_plain_files_partial (BytesProps.v): Closed under the global context
C57_backslash_refuted (BytesProps.v): Closed under the global context
C58_dxb (CutProps.v): Closed under the global context
C58_sections_are_closed_partial (CutProps.v): Closed under the global context
C58_between_sections_refuted (CutProps.v): Closed under the global context
C59_handles_are_free_partial (HandleProps.v): Closed under the global context
C59_no_seed_refuted (HandleProps.v): Closed under the global context
C59_saved_and_loaded_text_partial (SavedHandleProps.v): Closed under the global context
C59_saved_and_loaded_binary_partial (SavedHandleProps.v): Closed under the global context
C60_saving_made_drawings (StorableProps.v): Closed under the global context
C60_loaded_to_any_version (StorableProps.v): Closed under the global context
C60_any_file_refuted (StorableProps.v): Closed under the global context
C61_reading_attributes (AttribProps.v): Closed under the global context
C61_reading_attribute_records (AttribProps.v): Closed under the global context
C61_documented_attributes_accepted (AttribProps.v): Closed under the global context
C61_documented_attribute_records_accepted (AttribProps.v): Closed under the global context
C61_writing_attributes (AttribProps.v): Closed under the global context
C61_attribute_lock_refuted (AttribProps.v): Closed under the global context
C61_reading_entities (DocProps.v): Closed under the global context
C61_documented_entities_accepted (DocProps.v): Closed under the global context
C61_reading_tables (DocProps.v): Closed under the global context
C61_documented_tables_accepted (DocProps.v): Closed under the global context
C61_writing_entities (DocProps.v): Closed under the global context
C61_writing_tables (DocProps.v): Closed under the global context
C61_reading_objects (DocProps.v): Closed under the global context
C61_documented_objects_accepted (DocProps.v): Closed under the global context
C61_writing_objects (DocProps.v): Closed under the global context
C61_dimension_lines_refuted (DocProps.v): Closed under the global context
C61_dimstyle_handle_refuted (DocProps.v): Closed under the global context
C61_zero_suppression_refuted (DocProps.v): Closed under the global context
C61_wipeout_refuted (DocProps.v): Closed under the global context
C61_material_refuted (DocProps.v): Closed under the global context
C61_fog_refuted (DocProps.v): Closed under the global context
C61_reading_layouts (LayoutProps.v): Closed under the global context
C61_writing_layouts (LayoutProps.v): Closed under the global context
C61_layout_setup_refuted (LayoutProps.v): Closed under the global context
C61_reading_rest_entities (RestProps.v): Closed under the global context
C61_documented_rest_accepted (RestProps.v): Closed under the global context
C61_writing_rest_entities (RestProps.v): Closed under the global context
C61_reading_rest_objects (RestProps.v): Closed under the global context
C61_writing_rest_objects (RestProps.v): Closed under the global context
C61_proxy_owner_refuted (RestProps.v): Closed under the global context
C61_reading_r2000_texts (RestProps.v): Closed under the global context
C61_documented_r2000_texts_accepted (RestProps.v): Closed under the global context
C61_writing_r2000_texts (RestProps.v): Closed under the global context
C61_sort_owner_refuted (SortProps.v): Closed under the global context
C62_reading_variables (DocProps.v): Closed under the global context
C62_documented_variables_accepted (DocProps.v): Closed under the global context
C62_writing_variables (DocProps.v): Closed under the global context
C62_nonzero_refuted (DocProps.v): Closed under the global context
C62_zero_suppression_refuted (DocProps.v): Closed under the global context
C63_text_trailer (TrailerProps.v): Closed under the global context
C63_saved_text_trailer (TrailerProps.v): Closed under the global context
C63_binary_trailer (TrailerProps.v): Closed under the global context
C63_saved_binary_trailer (TrailerProps.v): Closed under the global context
C63_no_mark_refuted (TrailerProps.v): Closed under the global context
C64_sections_apart (SectionsProps.v): Closed under the global context
C64_binary_sections_apart (SectionsProps.v): Closed under the global context
C64_text_sections_apart (SectionsProps.v): Closed under the global context
C64_any_order (SectionsProps.v): Closed under the global context
C64_tables_last_refuted (SectionsProps.v): Closed under the global context
C65_entities_any_order (OrderProps.v): Closed under the global context
C65_ordered_entities_refuted (OrderProps.v): Closed under the global context
C65_objects_any_order (OrderProps.v): Closed under the global context
C65_ordered_objects_refuted (OrderProps.v): Closed under the global context
C65_table_items_any_order (OrderProps.v): Closed under the global context
C65_shared_codes_refuted (OrderProps.v): Closed under the global context
C65_files_any_order (OrderProps.v): Closed under the global context
C65_binary_files_any_order (OrderProps.v): Closed under the global context
C65_text_files_any_order (OrderProps.v): Closed under the global context
C66_entities_ignore_other_codes (OrderProps.v): Closed under the global context
C66_objects_ignore_other_codes (OrderProps.v): Closed under the global context
C66_table_items_ignore_other_codes (OrderProps.v): Closed under the global context
C66_files_ignore_other_codes (OrderProps.v): Closed under the global context
C66_binary_files_ignore_other_codes (OrderProps.v): Closed under the global context
C66_text_files_ignore_other_codes (OrderProps.v): Closed under the global context
C67_entities_written_again (StableProps.v): Closed under the global context
C67_entities_refuted (StableProps.v): Closed under the global context
C67_objects_written_again (StableProps.v): Closed under the global context
C67_objects_refuted (StableProps.v): Closed under the global context
C67_table_items_written_again (StableProps.v): Closed under the global context
C67_view_port_ucs_refuted (StableProps.v): Closed under the global context
C67_block_heads_written_again (StableProps.v): Closed under the global context
C67_classes_written_again (StableProps.v): Closed under the global context
C68_loaded_complete (RefProps.v): Closed under the global context
C68_added_complete (RefProps.v): Closed under the global context
C68_new_complete (RefProps.v): Closed under the global context
C68_removed_refuted (RefProps.v): Closed under the global context
C68_members_and_inserts_refuted (RefProps.v): Closed under the global context
C68_mline_style_names (RefProps.v): Closed under the global context
C69_handles_written (HandleFileProps.v): Closed under the global context
C69_handles_differ (HandleFileProps.v): Closed under the global context
C69_seed (HandleFileProps.v): Closed under the global context
C69_block_ends_refuted (HandleFileProps.v): Closed under the global context
C69_attribute_texts_refuted (HandleFileProps.v): Closed under the global context
C69_block_members_refuted (HandleFileProps.v): Closed under the global context
C70_reading_entity_lists_partial (ListProps.v): Closed under the global context
C70_reading_object_lists_partial (ListProps.v): Closed under the global context
C70_reading_table_lists_partial (ListProps.v): Closed under the global context
C70_writing_entity_lists_partial (ListProps.v): Closed under the global context
C70_writing_object_lists_partial (ListProps.v): Closed under the global context
C70_writing_table_lists_partial (ListProps.v): Closed under the global context
C70_written_elsewhere_refuted (ListProps.v): Closed under the global context
C70_wipeout_refuted (ListProps.v): Closed under the global context
C70_reading_binary_data (PieceProps.v): Closed under the global context
C70_writing_binary_data (PieceProps.v): Closed under the global context
C70_reading_object_binary_data (PieceProps.v): Closed under the global context
C70_writing_object_binary_data (PieceProps.v): Closed under the global context
C70_reading_macros (PieceProps.v): Closed under the global context
C70_frame_preview_refuted (PieceProps.v): Closed under the global context
C70_reading_proxy_lists (RestProps.v): Closed under the global context
C70_writing_proxy_lists_partial (RestProps.v): Closed under the global context
C70_proxy_owner_listed_refuted (RestProps.v): Closed under the global context
C70_reading_proxy_identifiers (RestProps.v): Closed under the global context
C70_proxy_object_owner_refuted (RestProps.v): Closed under the global context
C70_reading_sort_tables (SortProps.v): Closed under the global context
C70_writing_sort_tables (SortProps.v): Closed under the global context
C70_reading_vertices (VertexProps.v): Closed under the global context
C70_writing_vertices (VertexProps.v): Closed under the global context
C70_vertex_not_begun (VertexProps.v): Closed under the global context
C71_reading_dimensions (DimensionProps.v): Closed under the global context
C71_documented_dimensions_accepted (DimensionProps.v): Closed under the global context
C71_unannounced_dimensions_skipped (DimensionProps.v): Closed under the global context
C71_two_line_angular_refuted (DimensionProps.v): Closed under the global context
C71_writing_dimensions (DimensionProps.v): Closed under the global context
```
