{"id": "C01", "title": "Control characters in strings survive a save/load", "statement": "Any string stored in a drawing that contains control characters or carets is recovered exactly after being escaped on write and unescaped on read.", "quantifier": "every string of Unicode scalar values, of any length", "why_tests_cant": "The escape table and the decoder's two-state loop interact at every position; only finitely many strings can be tried.", "anchors": ["src/code_pair_value.rs: escape_control_characters, CodePairValue::un_escape_string"]}
{"id": "C02", "title": "A string value can never break the file framing", "statement": "The bytes written for a string value contain no line feed, carriage return, NUL or other byte below 32, so a string can neither end its own line in a text DXF nor its NUL-terminated field in a binary DXF; for R2004 and earlier text files every byte written for a string is 7-bit ASCII.", "quantifier": "every string of Unicode scalar values and every output mode", "why_tests_cant": "It is an injection-safety statement over all strings, tests only try benign ones.", "anchors": ["src/code_pair_value.rs: escape_control_characters, escape_unicode_to_ascii", "src/code_pair_writer.rs: write_ascii_code_pair, write_binary_code_pair"]}
{"id": "C03", "title": "Unicode text survives in R2004-and-earlier text files", "statement": "A string written to a text DXF of version R2004 or earlier with \\U+XXXX escapes is read back unchanged (full claim: every string; known exceptions are strings whose escaped form contains a backslash not starting an escape, and characters above U+FFFF).", "quantifier": "every string of Unicode scalar values", "why_tests_cant": "The decoder gathers a fixed seven character window after every backslash; whether windows stay aligned depends on the entire string.", "anchors": ["src/code_pair_value.rs: escape_unicode_to_ascii, un_escape_ascii_to_unicode"]}
{"id": "C04", "title": "Integers and booleans survive the text format", "statement": "Every 16-bit, 32-bit and 64-bit integer value and every boolean value written to a text DXF is parsed back to the same number, independent of padding, and out-of-range integers are reported as errors rather than wrapped.", "quantifier": "all values of the integer types and any amount of surrounding blanks", "why_tests_cant": "The value ranges are too large to enumerate and 16-bit values take a detour through floating point parsing.", "anchors": ["src/code_pair_value.rs: Debug for CodePairValue", "src/helper_functions.rs: parse_i16, parse_i32, parse_i64"]}
{"id": "C05", "title": "Handles survive their textual form", "statement": "Converting any handle to its hexadecimal text and parsing that text gives the same handle, distinct handles have distinct texts, and surrounding blanks, leading zeros and letter case do not matter.", "quantifier": "all 64-bit handle values and all admissible spellings", "why_tests_cant": "2^64 values.", "anchors": ["src/handle.rs: Handle::as_string", "src/code_pair.rs: CodePair::as_handle", "src/helper_functions.rs: parse_hex_string"]}
{"id": "C06", "title": "Binary chunks survive the text format", "statement": "A binary value written as hexadecimal text is read back byte for byte.", "quantifier": "all byte vectors of any length", "why_tests_cant": "Unbounded input; odd/even digit handling depends on length.", "anchors": ["src/code_pair_value.rs: Debug for CodePairValue", "src/helper_functions.rs: parse_hex_string"]}
{"id": "C07", "title": "Floating point numbers in text files", "statement": "A finite double written to a text DXF is read back exactly whenever it has at most twelve fractional binary digits (all integers, halves, ... 1/4096ths), and every finite double is read back as the double nearest to its value rounded to twelve decimals; the unrestricted identity is false.", "quantifier": "all finite IEEE-754 doubles", "why_tests_cant": "2^64 values; rounding errors appear only in rare patterns.", "anchors": ["src/code_pair_value.rs: format_f64", "src/helper_functions.rs: parse_f64"]}
{"id": "C08", "title": "The group code alone determines the value type", "statement": "Every value delivered by either reader has the type assigned to its group code; codes without an assigned type are reported as an error; the table has no overlaps or gaps inside its documented ranges.", "quantifier": "all 32-bit group codes and all input bytes", "why_tests_cant": "Needs every code and every input.", "anchors": ["src/expected_type.rs: ExpectedType::new", "src/code_pair_iter.rs: read_code_pair"]}
{"id": "C09", "title": "Text code pair streams round-trip", "statement": "Writing any sequence of well-typed code pairs as a text DXF and reading the bytes back yields the same sequence of pairs and then a clean end of input.", "quantifier": "all finite sequences of code pairs with typed values, both string encodings", "why_tests_cant": "Unbounded sequences; a framing bug shows only for particular neighbours.", "anchors": ["src/code_pair_writer.rs: write_ascii_code_pair", "src/code_pair_iter.rs: TextCodePairIter::read_code_pair", "src/helper_functions.rs: read_line"]}
{"id": "C10", "title": "Binary code pair streams round-trip", "statement": "Writing any sequence of well-typed code pairs beginning with a SECTION pair as a binary DXF and reading it back yields the same sequence, in the one-byte/three-byte code format before R13 and in the two-byte format from R13 on (full claim: all strings and values; exceptions are non-ASCII strings, chunks over 255 bytes and booleans outside a byte).", "quantifier": "all finite code pair sequences and all versions", "why_tests_cant": "Unbounded; the reader guesses the format from the first pair.", "anchors": ["src/code_pair_writer.rs: write_prelude, write_binary_code_pair", "src/code_pair_iter.rs: BinaryCodePairIter"]}
{"id": "C11", "title": "Line ending style does not matter", "statement": "Replacing every CR LF in a text DXF by LF (or the other way round) does not change the code pairs or errors read, and blanks around group codes and numeric values do not matter either.", "quantifier": "all text inputs", "why_tests_cant": "Needs all inputs and all mixtures of endings.", "anchors": ["src/helper_functions.rs: read_line", "src/code_pair_iter.rs: TextCodePairIter"]}
{"id": "C12", "title": "Reading terminates and consumes its input", "statement": "Reading code pairs from any byte sequence, text or binary, terminates: every pair delivered consumes at least one byte, so the number of pairs is bounded by the number of bytes.", "quantifier": "all byte sequences", "why_tests_cant": "Non-termination cannot be excluded by running finitely many inputs.", "anchors": ["src/code_pair_iter.rs", "src/helper_functions.rs: read_line, read_u8"]}
{"id": "C13", "title": "Reported positions are the real positions", "statement": "The position attached to each pair of a text DXF is the line number of its group code line (first line is 1), so positions are odd and increase by two from pair to pair; in a binary DXF the position is the byte offset just after the pair.", "quantifier": "all inputs", "why_tests_cant": "Error positions are used for diagnosis and depend on the entire prefix of the input.", "anchors": ["src/code_pair_iter.rs: read_code_pair", "src/code_pair.rs: CodePair"]}
{"id": "C14", "title": "Comments are invisible", "statement": "Inserting comment pairs (code 999) anywhere between the pairs of a file does not change what is delivered to the section readers, and so not the drawing loaded from the file; the only exception are comments whose bytes are no text in the encoding of the file.", "quantifier": "all pair streams, all text files of readable pairs, all insertion points", "why_tests_cant": "Exponentially many insertion patterns, interacting with push-back.", "anchors": ["src/code_pair_put_back.rs", "src/drawing.rs: Drawing::load_with_encoding"]}
{"id": "C15", "title": "Push-back never loses, duplicates or reorders pairs", "statement": "Under every interleaving of reading and pushing back just-read pairs, the sequence of pairs delivered is the original stream: a pushed back pair is delivered again before anything else, in last-in first-out order.", "quantifier": "all sequences of read/push-back operations on all streams", "why_tests_cant": "It is a statement over all histories.", "anchors": ["src/code_pair_put_back.rs: CodePairPutBack"]}
{"id": "C16", "title": "Extension data groups round-trip", "statement": "Application-defined extension groups, arbitrarily nested, are read back as written, leaving the stream exactly after the group (full claim: all groups; exceptions are groups without items, which are not written).", "quantifier": "all finite trees of extension groups, all following pairs", "why_tests_cant": "Unbounded nesting.", "anchors": ["src/extension_data.rs: ExtensionGroup::read_group, add_code_pairs"]}
{"id": "C17", "title": "Extended entity data round-trips", "statement": "Extended data (XDATA) attached to an object, with arbitrarily nested control groups, is read back as written for R2000 and later, leaving the stream at the first pair outside extended data, and is not written at all before R2000.", "quantifier": "all XData trees, all following pairs", "why_tests_cant": "Unbounded nesting.", "anchors": ["src/x_data.rs: XData::read_item, add_code_pairs, XDataItem"]}
{"id": "C18", "title": "Malformed groups are rejected, not mis-read", "statement": "An extension group that is not opened by a brace or is cut off by the end of input yields an error and never a truncated value.", "quantifier": "all pair streams", "why_tests_cant": "All truncation points of all trees.", "anchors": ["src/extension_data.rs", "src/x_data.rs"]}
{"id": "C19", "title": "Handles handed out by a drawing are unique", "statement": "Starting from a new drawing, whatever sequence of add/remove/normalize operations is performed, the handle given to a newly added item is non-zero, never equals a handle handed out before, and is smaller than the drawing's next available handle.", "quantifier": "all histories of public mutating operations (until the 64-bit counter overflows)", "why_tests_cant": "A statement over unbounded histories.", "anchors": ["src/drawing.rs: assign_and_get_handle, next_handle, add_*", "src/handle.rs: next_handle_value"]}
{"id": "C20", "title": "Items can be found by the handle they were given", "statement": "After adding an item, looking it up by the handle it received returns that item as long as it has not been removed, and a lookup never returns an item with a different handle; the zero handle finds nothing.", "quantifier": "all histories of adding items and all handles", "why_tests_cant": "Search order over twelve collections with nested children.", "anchors": ["src/drawing.rs: item_by_handle"]}
{"id": "C21", "title": "Removing by index removes exactly that item", "statement": "remove_x(i) returns the i-th item and leaves all other items in order; for an index out of range it returns nothing and changes nothing.", "quantifier": "all drawings, all collections, all indices", "why_tests_cant": "All lengths and all indices.", "anchors": ["src/drawing.rs: remove_app_id ... remove_view_port"]}
{"id": "C22", "title": "Normalizing establishes the mandatory table entries", "statement": "After normalize() the drawing has the mandatory application id, block records, dimension style, layer, line types, text style and viewport entries, every entry present before is still present with its handle, tables are sorted by name, and the header's current-item names are non-empty.", "quantifier": "all drawings", "why_tests_cant": "All starting contents.", "anchors": ["src/drawing.rs: normalize, normalize_*, ensure_*_is_present_*, src/header.rs: Header::normalize"]}
{"id": "C23", "title": "Normalizing settles", "statement": "Normalizing a second time changes nothing, except for the z components of the spacings of the view port *ACTIVE if the first time has added it; a third time changes nothing at all.", "quantifier": "all drawings", "why_tests_cant": "All starting contents; uses case-insensitive or exact comparisons at several places.", "anchors": ["src/drawing.rs: normalize"]}
{"id": "C24", "title": "Referenced layers and line types exist after adding", "statement": "After adding an entity, a layer with the entity's layer name and a line type with its line type name exist in the drawing; adding does not create an entry that already exists.", "quantifier": "all drawings and entities", "why_tests_cant": "All names and all prior contents.", "anchors": ["src/drawing.rs: add_entity, ensure_layer_is_present, ensure_line_type_is_present"]}
{"id": "C25", "title": "Clear empties the drawing", "statement": "After clear() all collections are empty, nothing can be found by handle, the header keeps everything but the next handle, and handle allocation restarts at the initial value; if the header has default values, a subsequent history behaves like that of an empty drawing.", "quantifier": "all drawings", "why_tests_cant": "All prior contents.", "anchors": ["src/drawing.rs: clear"]}
{"id": "C26", "title": "Saved files have the documented section structure", "statement": "The pairs written for a drawing are a sequence of sections, each opened by 0/SECTION and 2/name and closed by 0/ENDSEC with no section marker inside it, in the fixed order HEADER, CLASSES, TABLES, BLOCKS, ENTITIES, OBJECTS, THUMBNAILIMAGE, followed by a single 0/EOF; sections not supported by the version are absent.", "quantifier": "all drawings and versions", "why_tests_cant": "All contents.", "anchors": ["src/drawing.rs: code_pairs, add_code_pairs"]}
{"id": "C27", "title": "Unknown sections are skipped without side effects", "statement": "Inserting a section with an unknown name and arbitrary contents free of 0/ENDSEC between two sections of a file does not change the drawing read.", "quantifier": "all pair streams and all unknown section bodies", "why_tests_cant": "All contents of the unknown section.", "anchors": ["src/drawing.rs: read_sections, swallow_section"]}
{"id": "C28", "title": "Unknown tables, entities and objects are skipped without side effects", "statement": "Unknown tables, entity types and object types are skipped up to the next item of the same level, and everything following them is read as if they were absent.", "quantifier": "all pair streams", "why_tests_cant": "All contents of unknown items.", "anchors": ["src/drawing.rs: swallow_table", "src/entity.rs: Entity::read", "src/object.rs: Object::read"]}
{"id": "C29", "title": "Polylines keep their vertices and inserts keep their attributes", "statement": "Collecting a flat sequence of entities into polylines with vertices and inserts with attributes loses and duplicates nothing and keeps the order; flattening a collected sequence and collecting again gives the same result.", "quantifier": "all sequences of entities", "why_tests_cant": "All sequences including missing terminators.", "anchors": ["src/entity_iter.rs: collect_entities", "src/entity.rs: add_post_code_pairs"]}
{"id": "C30", "title": "Errors in entity or object data are reported", "statement": "If the pair stream of a file contains a malformed pair inside the ENTITIES, BLOCKS or OBJECTS section, loading reports an error instead of silently returning a drawing with the remaining items missing.", "quantifier": "all inputs with a malformed pair", "why_tests_cant": "All positions of the malformed pair.", "anchors": ["src/entity_iter.rs: EntityIter::next", "src/object_iter.rs", "src/drawing.rs: read_entities"]}
{"id": "C31", "title": "Every table entry survives a save/load", "statement": "For each of the nine symbol tables, an entry written for a version is read back with the same value in every field that version stores, and default in every other field.", "quantifier": "all entries, all versions", "why_tests_cant": "Dozens of fields times 21 versions times all values.", "anchors": ["spec/TableSpec.xml", "build/table_generator.rs"]}
{"id": "C32", "title": "Every header variable survives a save/load", "statement": "Each header variable written for a version is read back with the same value, and variables not stored by the version read back as defaults (full claim: all variables; exceptions are listed).", "quantifier": "all header values, all versions", "why_tests_cant": "About 250 variables times 21 versions times all values.", "anchors": ["spec/HeaderVariablesSpec.xml", "build/header_generator.rs", "src/header.rs"]}
{"id": "C33", "title": "Every generated entity survives a save/load", "statement": "For entity types whose reader and writer are fully generated, an entity written for a version that supports it is read back with the same value in every field that version stores (exceptions are listed per field).", "quantifier": "all entity values, all versions", "why_tests_cant": "Some 40 entity types with hundreds of fields; field codes shadow each other.", "anchors": ["spec/EntitiesSpec.xml", "build/entity_generator.rs", "src/entity.rs: Entity::read"]}
{"id": "C34", "title": "Every generated object survives a save/load", "statement": "As for entities, for object types whose reader and writer are generated.", "quantifier": "all object values, all versions", "why_tests_cant": "Dozens of object types.", "anchors": ["spec/ObjectsSpec.xml", "build/object_generator.rs", "src/object.rs: Object::read"]}
{"id": "C35", "title": "Flags occupy disjoint bits", "statement": "Setting one boolean flag property of an object never changes another flag property, and reading a flag back gives the value set.", "quantifier": "all flag words and all pairs of flags", "why_tests_cant": "All 2^16/2^32 flag words.", "anchors": ["spec/*.xml: Flag", "build/*_generator.rs: flag accessors", "src/enums.rs: ViewMode"]}
{"id": "C36", "title": "Dimension type and its flag bits are independent", "statement": "Setting the dimension type preserves the ordinate and user-text flags and reading it back gives the type set; setting the flags preserves the type.", "quantifier": "all stored 16-bit values and all dimension types", "why_tests_cant": "All 2^16 stored values.", "anchors": ["src/entity.rs: DimensionBase::set_dimension_type, dimension_type"]}
{"id": "C37", "title": "Colours classify consistently", "statement": "A colour is exactly one of by-layer, by-block, by-entity, turned off or an index; constructing from an index and asking for the index round-trips; a layer's colour and on/off state survive their combined signed encoding.", "quantifier": "all 16-bit raw colour values", "why_tests_cant": "All values, including the negative extreme.", "anchors": ["src/color.rs", "src/helper_functions.rs: read_color_value"]}
{"id": "C38", "title": "File versions round-trip and order correctly", "statement": "The version text written in a file is read back as the same version (exception: R11 and R12 share one text), and the ordering of versions is the chronological one.", "quantifier": "all versions and all version texts", "why_tests_cant": "Every version comparison in the library depends on the order.", "anchors": ["src/enums.rs: AcadVersion"]}
{"id": "C39", "title": "Thumbnail header reconstruction", "statement": "A bitmap stored without its file header is read back with a header whose file-length and data-offset fields are consistent with the stored bytes, and writing strips exactly what reading adds.", "quantifier": "all bitmap byte vectors", "why_tests_cant": "All lengths, header sizes and palettes.", "anchors": ["src/thumbnail.rs"]}
{"id": "C40", "title": "DXB files round-trip", "statement": "Entities of the kinds supported by the binary DXB format written by save_dxb are read back in order with the same geometry (in single precision), layer and colour.", "quantifier": "all sequences of supported entities", "why_tests_cant": "The reader is a state machine over layer, colour, scale and number mode.", "anchors": ["src/dxb_reader.rs", "src/dxb_writer.rs"]}
{"id": "C41", "title": "Coordinate lists are zipped completely", "statement": "Points stored as separate coordinate lists are recombined in order; no point is lost when the lists have equal length and the temporary lists are emptied.", "quantifier": "all coordinate lists", "why_tests_cant": "Unbounded lengths.", "anchors": ["src/helper_functions.rs: combine_points_2, combine_points_3", "src/entity.rs: post_parse"]}
{"id": "C42", "title": "Transformation matrices round-trip", "statement": "A matrix built from the sixteen numbers written for another matrix equals it.", "quantifier": "all matrices and all element lists", "why_tests_cant": "Index permutations over all values.", "anchors": ["src/transformation_matrix.rs"]}
{"id": "C43", "title": "Classes round-trip", "statement": "Class definitions written for any version with a CLASSES section are read back with the same stored fields, for both the old and the new layout.", "quantifier": "all classes, all versions", "why_tests_cant": "Two layouts with different presence rules.", "anchors": ["src/class.rs"]}
{"id": "C44", "title": "Blocks round-trip", "statement": "A block definition, including its entities, written in the BLOCKS section is read back with the same stored fields (exceptions listed).", "quantifier": "all blocks, all versions", "why_tests_cant": "All contents.", "anchors": ["src/block.rs"]}
{"id": "C45", "title": "Dictionaries round-trip and are written deterministically", "statement": "A dictionary object is read back with the same entries, and the written pairs depend only on the set of entries, not on insertion or hash order. In a dictionary from any source, every name refers to the last handle given for it, and flags, owner and default are those of the last pair with their code.", "quantifier": "all dictionaries, all sequences of pairs without groups", "why_tests_cant": "Hash iteration order varies between runs.", "anchors": ["src/object.rs: Dictionary custom reader/writer"]}
{"id": "C46", "title": "Objects holding lists round-trip", "statement": "Objects storing variable-length lists (light lists, data tables, multi-line styles, x-records, sort tables, spatial filters) are read back with the lists they were written with (exceptions are listed as refuted). The data of an x-record from any source are all the pairs behind its marker, unchanged and in their order.", "quantifier": "all list contents", "why_tests_cant": "Unbounded lists.", "anchors": ["src/object.rs: custom readers and writers"]}
{"id": "C47", "title": "Typed pointers only resolve to the right kind of item", "statement": "A typed reference set to an item and resolved through the drawing returns that item; setting a reference to an item of the wrong kind is an error and changes nothing; resolving never returns an item of another kind.", "quantifier": "all drawings, all items", "why_tests_cant": "All handle collisions.", "anchors": ["build/xml_helpers.rs", "src/drawing.rs: item_by_handle"]}
{"id": "C48", "title": "Save then load returns the drawing", "statement": "Saving a drawing as a text or binary DXF and loading it gives a drawing with the same contents as the original after normalization, for every collection whose items round-trip individually.", "quantifier": "all drawings with distinct non-zero handles, all versions, both formats", "why_tests_cant": "Composition of every other property.", "anchors": ["src/drawing.rs: save, save_binary, load"]}
{"id": "C49", "title": "Old versions never receive newer features", "statement": "The pairs written for a version contain no pair belonging to a feature introduced later: no OBJECTS section before R13, no extended data before R2000, no subclass markers in entities before R13, no entity types unsupported by the version.", "quantifier": "all drawings and versions", "why_tests_cant": "All contents times all versions.", "anchors": ["src/drawing.rs", "src/entity.rs", "src/x_data.rs", "build/entity_generator.rs"]}
{"id": "C50", "title": "Dates survive in whole seconds", "statement": "A date not before 1900 stored as a Julian day number and read back differs by less than the documented resolution; dates out of range are clamped to the epoch and never fail.", "quantifier": "all dates and all doubles", "why_tests_cant": "All values.", "anchors": ["src/helper_functions.rs: as_double, as_datetime"]}
{"id": "C51", "title": "Light-weight polyline vertices survive a save/load", "statement": "A light-weight polyline is read back with the same number of vertices and the same coordinates, widths, bulges and identifiers in order.", "quantifier": "all vertex lists, all versions", "why_tests_cant": "Unbounded lists with optional per-vertex pairs.", "anchors": ["src/entity.rs: LwPolyline custom reader and writer"]}
{"id": "C52", "title": "Identifiers (UUIDs) survive their textual form", "statement": "A UUID written in hyphenated form, with or without braces, is read back unchanged; anything else yields the nil UUID and never fails.", "quantifier": "all 128-bit identifiers and all strings", "why_tests_cant": "2^128 values.", "anchors": ["src/helper_functions.rs: as_uuid, uuid_string"]}
{"id": "C53", "title": "Loading ends on every input", "statement": "Loading a file ends, with a drawing or an error, whatever the file contains.", "quantifier": "all sequences of code pairs and malformed pairs", "why_tests_cant": "Termination on all inputs cannot be tested.", "anchors": ["src/drawing.rs: load_from_iter, read_sections", "src/block.rs: read_block", "src/entity_iter.rs", "src/object.rs: apply_custom_reader_sectionsettings"]}
{"id": "C54", "title": "Loading never panics", "statement": "Loading a file never panics, whatever the file contains.", "quantifier": "all sequences of code pairs and malformed pairs", "why_tests_cant": "All inputs.", "anchors": ["src/drawing.rs: load_from_iter", "src/header.rs", "src/entity.rs", "src/object.rs", "src/helper_functions.rs"]}
{"id": "C55", "title": "Values have the documented type of their code", "statement": "Every pair written for a drawing has a value of the type that the documentation gives for its code, so that both file formats can store it and a reader can interpret it.", "quantifier": "all drawings and versions", "why_tests_cant": "All contents.", "anchors": ["src/drawing.rs: code_pairs", "src/code_pair_value.rs", "build/entity_generator.rs", "build/object_generator.rs", "build/table_generator.rs", "build/header_generator.rs"]}
{"id": "C56", "title": "Text and binary files of a drawing hold the same drawing", "statement": "Saving one drawing as text and as binary and loading both files gives equal drawings (full claim: for every drawing that can be saved; known exceptions are values only one of the formats keeps, such as doubles with more than twelve decimals).", "quantifier": "every drawing whose pairs both formats can store, every version and environment", "why_tests_cant": "The two formats have separate writers and separate readers; a test compares them on the values it happens to use.", "anchors": ["src/drawing.rs: Drawing::save, Drawing::save_binary, Drawing::load", "src/code_pair_writer.rs: write_ascii_code_pair, write_binary_code_pair", "src/code_pair_iter.rs: CodePairIter::next"]}
{"id": "C57", "title": "A plain file loads the same under every encoding", "statement": "A file of bytes below 128 without backslashes gives the same drawing, or the same error, whatever encoding Drawing::load_with_encoding is given and wherever the header switches to UTF-8 (full claim: every ASCII file; known exceptions are files with backslashes, which only Windows-1252 takes for escapes).", "quantifier": "every sequence of such bytes, every pair of encodings", "why_tests_cant": "The encoding reaches every line reader, the escape decoder and the switch in the header; tests run with one encoding.", "anchors": ["src/drawing.rs: Drawing::load_with_encoding", "src/code_pair_iter.rs: TextCodePairIter::read_code_pair, read_as_utf8", "src/helper_functions.rs: read_line"]}
{"id": "C58", "title": "A file cut short is reported", "statement": "If only the beginning of a file is there, loading it fails or gives the drawing of the whole file (full claim: for every file; known exceptions are text and binary files cut between two sections, which load without the sections that are missing).", "quantifier": "every sequence of bytes and every point to cut it at", "why_tests_cant": "There are as many cuts as bytes, and each lands in another state of another reader; tests try none or one.", "anchors": ["src/drawing.rs: Drawing::load_from_iter, Drawing::read_sections", "src/dxb_reader.rs: DxbReader::load"]}
{"id": "C59", "title": "Items added to a loaded file get handles of their own", "statement": "In a drawing that was loaded, the next handle to be given is used by no item, and stays unused by any through further additions, so an item that is added gets a handle of its own (full claim: for every file; known exception: files with a handle that is not below the next one, as their $HANDSEED is missing or too low, since loading does not look at the handles it finds).", "quantifier": "every sequence of bytes, every encoding, every sequence of additions and normalizations", "why_tests_cant": "Handles come from every item's reader and from the header, which may be anything; tests load one file with a seed above all its handles.", "anchors": ["src/drawing.rs: Drawing::next_available_handle, Drawing::add_entity, Drawing::add_object, Drawing::read_sections", "src/entity_iter.rs: EntityIter::next", "src/object_iter.rs: ObjectIter::next"]}
{"id": "C60", "title": "What can be loaded can be saved", "statement": "A drawing loaded from any file can be saved as text and as binary, also after it has been given another version, normalized, cleared, had items removed or items of other loaded drawings added; the only exception are data tables of irregular shape under a version that has data tables, and with these both saves panic.", "quantifier": "every sequence of bytes, encoding and version, every drawing made from such drawings", "why_tests_cant": "The writers index into vectors and match on values that the readers leave to the file; a test tries files somebody thought of.", "anchors": ["src/drawing.rs: Drawing::load_with_encoding, Drawing::save, Drawing::save_binary", "src/object.rs: add_custom_code_pairs, apply_custom_reader_datatable", "src/dxb_reader.rs: DxbReader::load"]}
{"id": "C61", "title": "Group codes mean what the DXF reference says", "statement": "A field of an entity, object or table item that the reference documents is, after reading, what the last pair with the documented code says, or the documented default; documented pairs are always accepted; and when written, the pairs under the code carry the field, which is there unless it has its default (full claim: for all types and codes of the reference; known exceptions are the suppressed dimension lines, the handle and the zero suppression of dimension styles, the clipping boundary of wipeouts, and three codes shared when writing).", "quantifier": "the 39 entity types, 21 objects and 9 tables listed in DocSpec.v and RestSpec.v, layouts, attributes before and behind their record marker, all sequences of pairs without groups, all entities, objects and items without groups", "why_tests_cant": "Reader and writer share one specification: with a code swapped in it, everything still round trips and only files of other programs are misread.", "anchors": ["spec/EntitiesSpec.xml", "spec/ObjectsSpec.xml", "spec/TableSpec.xml", "build/entity_generator.rs: generate_try_apply_code_pair, generate_write", "build/table_generator.rs", "src/entity.rs: EntityCommon"]}
{"id": "C62", "title": "Header variables mean what the DXF reference says", "statement": "A documented header variable is, after reading, the last value given to it or that of a new header; any sequence of documented variables is accepted; a header that is written has the variable with the value of the field (full claim: for every variable and every value of the reference; known exceptions are flags other than 0 and 1, and the zero suppression).", "quantifier": "the 268 variables (by code) listed in DocSpec.v, all sequences of pairs, all headers", "why_tests_cant": "Reader and writer share one specification: with a name or code wrong in it, everything still round trips and only files of other programs are misread.", "anchors": ["spec/HeaderVariablesSpec.xml", "build/header_generator.rs: generate_set_header_value, generate_add_code_pairs", "src/header.rs: Header::read"]}
{"id": "C63", "title": "What follows the end mark is ignored", "statement": "A text file whose last lines are 0 and EOF and that can be loaded gives the same drawing with any bytes appended to it, such as the padding of old systems, a second file or garbage; so does a binary file of well-formed pairs that ends with 0/EOF, and so does every saved drawing.", "quantifier": "every sequence of bytes that is a file, every sequence of bytes behind it, every encoding", "why_tests_cant": "The readers look ahead, skip malformed items and may switch the encoding on the way; whether any of them runs past the end mark depends on the whole file.", "anchors": ["src/drawing.rs: Drawing::read_sections, Drawing::load_from_iter", "src/entity_iter.rs", "src/object_iter.rs", "src/code_pair_put_back.rs: CodePairPutBack", "src/code_pair_iter.rs"]}
{"id": "C64", "title": "Each section of a file fills its own part of the drawing", "statement": "If every section of a file, alone behind the header, makes a file that can be loaded, the whole file can be loaded, and its entities, blocks, classes, thumbnail, objects and table entries are those of the sections in turn, whatever stands between them; what a section adds for others are only layers, line types and other table entries, multi-line styles and handles. So sections of different names may come in any order, except that tables that come after the entities on their layers give those layers twice.", "quantifier": "every header, every list of sections without a pair 0/ENDSEC inside, as pairs, text and binary", "why_tests_cant": "The readers of all sections change one drawing and look at parts of it that other sections fill; tests have one order of sections and one or two of them.", "anchors": ["src/drawing.rs: Drawing::read_sections, Drawing::read_entities, Drawing::read_objects, Drawing::ensure_layer_is_present", "src/table.rs", "src/block.rs: Block::read_block", "src/class.rs: Class::read_classes", "src/thumbnail.rs"]}
{"id": "C65", "title": "The pairs of an item may come in any order", "statement": "An entity, an object or a table item reads the same whatever the order of its pairs, as long as pairs with the same code keep theirs, and a file with its entities so rearranged gives the same drawing. The exceptions are known and the list of them is exact: attributes and attribute definitions, dimensions, light-weight polylines, multi-line texts; layouts, materials, multi-line styles, sort tables; and the fields of dimension styles and view ports that have two codes.", "quantifier": "every type of entity and of table item, every object without a reader of its own, all pairs outside of groups (102, 1001), every file around them, as pairs, text and binary", "why_tests_cant": "A test reads the order one program writes; the number of orders is the factorial of the number of pairs.", "anchors": ["build/entity_generator.rs: generate_try_apply_code_pair", "build/object_generator.rs", "build/table_generator.rs", "src/entity.rs: Entity::apply_custom_reader_*", "src/object.rs: apply_custom_reader_*", "spec/EntitiesSpec.xml"]}
{"id": "C66", "title": "Group codes an item has no meaning for are ignored", "statement": "Pairs whose code the type of an entity, object or table item does not use can be put anywhere in it or taken out: it reads as before, and the drawing loaded from the file is the same.", "quantifier": "every type of entity and of table item, every object without a reader of its own, all pairs outside of groups, every value of the extra pairs, every file around them, as pairs, text and binary", "why_tests_cant": "Which codes are unused differs for every type; files of later versions have codes that no test has.", "anchors": ["build/entity_generator.rs: generate_try_apply_code_pair", "build/object_generator.rs", "build/table_generator.rs", "src/entity.rs: Entity::read, EntityCommon::apply_individual_pair", "src/object.rs: Object::read"]}
{"id": "C67", "title": "Saving what was loaded writes what was saved", "statement": "An entity, object, table entry, block head or class that is written for a version, read back and written again for that version gives the pairs of the first time, up to the sign of zeros. The exceptions are known and the list of them is exact: twelve types of entities, fifteen of objects, and view ports since R2007, whose own UCS is gone the second time.", "quantifier": "every type of entity and table entry, every object without a reader of its own, block heads and classes, all values that fit the codes, every version that supports the type, with and without handles", "why_tests_cant": "Whether a field that is written depends on one that is not can only be seen over all fields and versions; tests compare one file with one drawing.", "anchors": ["build/entity_generator.rs: generate_write_code_pairs", "build/object_generator.rs", "build/table_generator.rs", "spec/TableSpec.xml: ViewPort", "src/entity.rs", "src/object.rs", "src/block.rs", "src/class.rs"]}
{"id": "C68", "title": "What a drawing refers to by name is in it", "statement": "In a drawing loaded from any file whatsoever, and in whatever is made of it or of a new drawing by adding items and normalizing, the layer and line type of every entity exist, as do its dimension, text or multi-line style, the line type of every layer, the layer and the record of every block with the layers and line types of the entities in it, the layers of layer filters and indexes and the view of plot settings. Exceptions: removed items, the styles of entities inside blocks, and the blocks that inserts name.", "quantifier": "every sequence of bytes and encoding, text, binary or DXB; every history of additions and normalizations after that", "why_tests_cant": "The table sections may come last, be incomplete or be missing; each item is added by another function which must make what it names.", "anchors": ["src/drawing.rs: Drawing::add_entity_no_handle_set, Drawing::add_object_no_handle_set, Drawing::add_block_no_handle_set, Drawing::ensure_*_is_present*, Drawing::normalize, Drawing::load_from_iter", "src/dxb_reader.rs: DxbReader::load", "src/table.rs"]}
{"id": "C69", "title": "The items of a saved file have handles of their own", "statement": "A saved file gives, in the order of the drawing, the handle of every entry, block, entity, attribute, vertex, end of a sequence and object that its version knows, and no other. For a drawing made by adding and removing items no two of these are the same, all are above 0 and below the next handle to be given out, and that one is in the header as $HANDSEED. Exceptions: the end of a block has the handle of the block (before R13 the block itself gives none), the texts of attributes have handle 0, and the vertices of polylines inside of blocks share one handle.", "quantifier": "every history of additions and removals, all header settings, every version, with handles", "why_tests_cant": "The handles are given out by the drawing, kept in the items and written by the writer of each type; a test compares one item with the expected pairs.", "anchors": ["src/drawing.rs: Drawing::code_pairs, Drawing::next_handle", "src/entity.rs: Entity::add_code_pairs, add_code_pairs_attribute_m_text, add_code_pairs_seqend", "src/object.rs: Object::add_code_pairs", "src/block.rs: Block::add_code_pairs", "build/table_generator.rs", "src/header.rs"]}
{"id": "C70", "title": "Repeated group codes are lists, in the order of the pairs", "statement": "Where the DXF reference repeats a group code, the field is the list of all values under it, in the order of the pairs and whatever stands between them: knots, weights, vertices, directions, members of a group, layers of a filter, texts of a solid, dashes of a line type, entities and places of a sort table, pieces of binary data. Points are put together from the k-th values of their codes; the vertices of lightweight polylines are the pairs from one 10 to the next. Written, the pairs under the code are the elements of the field in their order. The exceptions are known: points of multi-lines and underlays, id buffers and section managers are written differently, and the boundary of a wipeout is not read.", "quantifier": "all sequences of plain pairs after the type, in any mixture; all lists; every version from R2000 on that has the type; twelve types of entities, seven of objects, line types", "why_tests_cant": "Tests have one or two elements, side by side; a list that is filled from the wrong code, reversed, or paired up wrongly when the codes are mixed differently looks the same there.", "anchors": ["build/entity_generator.rs: generate_try_apply_code_pair, generate_write_code_pairs", "build/object_generator.rs", "build/table_generator.rs", "src/entity.rs: combine_points_2, combine_points_3, EntityCommon", "src/entity.rs: MLine, Image, Leader, Spline, Underlay post-parse functions", "spec/EntitiesSpec.xml", "spec/ObjectsSpec.xml", "spec/TableSpec.xml"]}
{"id": "C71", "title": "A dimension is what its subclass marker says", "statement": "A DIMENSION is of the kind that the first subclass marker naming one of the five kinds of the library announces: aligned or rotated, radial, diametric, three-point angular, ordinate. The fields all dimensions have are what the last pairs before that marker say, the fields of the kind what the last pairs behind it say, and the fields of all entities what the last pairs on either side say; code 70 is the type plus 32, 64 and 128 for its three properties. Whatever the reference allows there is accepted. Written, a dimension is its common fields, the marker and the fields of its kind, under the same codes. A dimension without such a marker is passed over as if it were not there; the angular dimension between two lines, a sixth kind in the reference, is therefore lost.", "quantifier": "the five kinds, all sequences of plain pairs before and behind the marker, any further markers; all field values; every version from R2000 on for writing", "why_tests_cant": "Five types share one reader, in which a code means something else, or nothing, depending on whether and which marker came before; tests have one dimension of each kind in the usual order.", "anchors": ["src/entity.rs: Entity::read, DimensionBase::set_dimension_type, DimensionBase::dimension_type", "build/entity_generator.rs: generate_try_apply_code_pair, generate_write_code_pairs", "spec/EntitiesSpec.xml: DIMENSION"]}
