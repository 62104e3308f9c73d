#!/usr/bin/env python3
"""Writes ../properties.jsonl. Kept as a script so the list is easy to review and extend."""
import json, os
P = []
def p(title, statement, quantifier, why, anchors):
    P.append(dict(id="C%02d" % (len(P)+1), title=title, statement=statement,
                  quantifier=quantifier, why_tests_cant=why, anchors=anchors))

p("Control characters in strings survive a save/load",
  "Any string stored in a drawing that contains control characters or carets is recovered exactly after being escaped on write and unescaped on read.",
  "every string of Unicode scalar values, of any length",
  "The escape table and the decoder's two-state loop interact at every position; only finitely many strings can be tried.",
  ["src/code_pair_value.rs: escape_control_characters, CodePairValue::un_escape_string"])
p("A string value can never break the file framing",
  "The bytes written for a string value contain no line feed, carriage return, NUL or other byte below 32, so a string can neither end its own line in a text DXF nor its NUL-terminated field in a binary DXF; for R2004 and earlier text files every byte written for a string is 7-bit ASCII.",
  "every string of Unicode scalar values and every output mode",
  "It is an injection-safety statement over all strings, tests only try benign ones.",
  ["src/code_pair_value.rs: escape_control_characters, escape_unicode_to_ascii", "src/code_pair_writer.rs: write_ascii_code_pair, write_binary_code_pair"])
p("Unicode text survives in R2004-and-earlier text files",
  "A string written to a text DXF of version R2004 or earlier with \\U+XXXX escapes is read back unchanged (full claim: every string; known exceptions are strings whose escaped form contains a backslash not starting an escape, and characters above U+FFFF).",
  "every string of Unicode scalar values",
  "The decoder gathers a fixed seven character window after every backslash; whether windows stay aligned depends on the entire string.",
  ["src/code_pair_value.rs: escape_unicode_to_ascii, un_escape_ascii_to_unicode"])
p("Integers and booleans survive the text format",
  "Every 16-bit, 32-bit and 64-bit integer value and every boolean value written to a text DXF is parsed back to the same number, independent of padding, and out-of-range integers are reported as errors rather than wrapped.",
  "all values of the integer types and any amount of surrounding blanks",
  "The value ranges are too large to enumerate and 16-bit values take a detour through floating point parsing.",
  ["src/code_pair_value.rs: Debug for CodePairValue", "src/helper_functions.rs: parse_i16, parse_i32, parse_i64"])
p("Handles survive their textual form",
  "Converting any handle to its hexadecimal text and parsing that text gives the same handle, distinct handles have distinct texts, and surrounding blanks, leading zeros and letter case do not matter.",
  "all 64-bit handle values and all admissible spellings",
  "2^64 values.",
  ["src/handle.rs: Handle::as_string", "src/code_pair.rs: CodePair::as_handle", "src/helper_functions.rs: parse_hex_string"])
p("Binary chunks survive the text format",
  "A binary value written as hexadecimal text is read back byte for byte.",
  "all byte vectors of any length",
  "Unbounded input; odd/even digit handling depends on length.",
  ["src/code_pair_value.rs: Debug for CodePairValue", "src/helper_functions.rs: parse_hex_string"])
p("Floating point numbers in text files",
  "A finite double written to a text DXF is read back exactly whenever it has at most twelve fractional binary digits (all integers, halves, ... 1/4096ths), and every finite double is read back as the double nearest to its value rounded to twelve decimals; the unrestricted identity is false.",
  "all finite IEEE-754 doubles",
  "2^64 values; rounding errors appear only in rare patterns.",
  ["src/code_pair_value.rs: format_f64", "src/helper_functions.rs: parse_f64"])
p("The group code alone determines the value type",
  "Every value delivered by either reader has the type assigned to its group code; codes without an assigned type are reported as an error; the table has no overlaps or gaps inside its documented ranges.",
  "all 32-bit group codes and all input bytes",
  "Needs every code and every input.",
  ["src/expected_type.rs: ExpectedType::new", "src/code_pair_iter.rs: read_code_pair"])
p("Text code pair streams round-trip",
  "Writing any sequence of well-typed code pairs as a text DXF and reading the bytes back yields the same sequence of pairs and then a clean end of input.",
  "all finite sequences of code pairs with typed values, both string encodings",
  "Unbounded sequences; a framing bug shows only for particular neighbours.",
  ["src/code_pair_writer.rs: write_ascii_code_pair", "src/code_pair_iter.rs: TextCodePairIter::read_code_pair", "src/helper_functions.rs: read_line"])
p("Binary code pair streams round-trip",
  "Writing any sequence of well-typed code pairs beginning with a SECTION pair as a binary DXF and reading it back yields the same sequence, in the one-byte/three-byte code format before R13 and in the two-byte format from R13 on (full claim: all strings and values; exceptions are non-ASCII strings, chunks over 255 bytes and booleans outside a byte).",
  "all finite code pair sequences and all versions",
  "Unbounded; the reader guesses the format from the first pair.",
  ["src/code_pair_writer.rs: write_prelude, write_binary_code_pair", "src/code_pair_iter.rs: BinaryCodePairIter"])
p("Line ending style does not matter",
  "Replacing every CR LF in a text DXF by LF (or the other way round) does not change the code pairs or errors read, and blanks around group codes and numeric values do not matter either.",
  "all text inputs",
  "Needs all inputs and all mixtures of endings.",
  ["src/helper_functions.rs: read_line", "src/code_pair_iter.rs: TextCodePairIter"])
p("Reading terminates and consumes its input",
  "Reading code pairs from any byte sequence, text or binary, terminates: every pair delivered consumes at least one byte, so the number of pairs is bounded by the number of bytes.",
  "all byte sequences",
  "Non-termination cannot be excluded by running finitely many inputs.",
  ["src/code_pair_iter.rs", "src/helper_functions.rs: read_line, read_u8"])
p("Reported positions are the real positions",
  "The position attached to each pair of a text DXF is the line number of its group code line (first line is 1), so positions are odd and increase by two from pair to pair; in a binary DXF the position is the byte offset just after the pair.",
  "all inputs",
  "Error positions are used for diagnosis and depend on the entire prefix of the input.",
  ["src/code_pair_iter.rs: read_code_pair", "src/code_pair.rs: CodePair"])
p("Comments are invisible",
  "Inserting comment pairs (code 999) anywhere between the pairs of a file does not change what is delivered to the section readers, and so not the drawing loaded from the file; the only exception are comments whose bytes are no text in the encoding of the file.",
  "all pair streams, all text files of readable pairs, all insertion points",
  "Exponentially many insertion patterns, interacting with push-back.",
  ["src/code_pair_put_back.rs", "src/drawing.rs: Drawing::load_with_encoding"])
p("Push-back never loses, duplicates or reorders pairs",
  "Under every interleaving of reading and pushing back just-read pairs, the sequence of pairs delivered is the original stream: a pushed back pair is delivered again before anything else, in last-in first-out order.",
  "all sequences of read/push-back operations on all streams",
  "It is a statement over all histories.",
  ["src/code_pair_put_back.rs: CodePairPutBack"])
p("Extension data groups round-trip",
  "Application-defined extension groups, arbitrarily nested, are read back as written, leaving the stream exactly after the group (full claim: all groups; exceptions are groups without items, which are not written).",
  "all finite trees of extension groups, all following pairs",
  "Unbounded nesting.",
  ["src/extension_data.rs: ExtensionGroup::read_group, add_code_pairs"])
p("Extended entity data round-trips",
  "Extended data (XDATA) attached to an object, with arbitrarily nested control groups, is read back as written for R2000 and later, leaving the stream at the first pair outside extended data, and is not written at all before R2000.",
  "all XData trees, all following pairs",
  "Unbounded nesting.",
  ["src/x_data.rs: XData::read_item, add_code_pairs, XDataItem"])
p("Malformed groups are rejected, not mis-read",
  "An extension group that is not opened by a brace or is cut off by the end of input yields an error and never a truncated value.",
  "all pair streams",
  "All truncation points of all trees.",
  ["src/extension_data.rs", "src/x_data.rs"])
p("Handles handed out by a drawing are unique",
  "Starting from a new drawing, whatever sequence of add/remove/normalize operations is performed, the handle given to a newly added item is non-zero, never equals a handle handed out before, and is smaller than the drawing's next available handle.",
  "all histories of public mutating operations (until the 64-bit counter overflows)",
  "A statement over unbounded histories.",
  ["src/drawing.rs: assign_and_get_handle, next_handle, add_*", "src/handle.rs: next_handle_value"])
p("Items can be found by the handle they were given",
  "After adding an item, looking it up by the handle it received returns that item as long as it has not been removed, and a lookup never returns an item with a different handle; the zero handle finds nothing.",
  "all histories of adding items and all handles",
  "Search order over twelve collections with nested children.",
  ["src/drawing.rs: item_by_handle"])
p("Removing by index removes exactly that item",
  "remove_x(i) returns the i-th item and leaves all other items in order; for an index out of range it returns nothing and changes nothing.",
  "all drawings, all collections, all indices",
  "All lengths and all indices.",
  ["src/drawing.rs: remove_app_id ... remove_view_port"])
p("Normalizing establishes the mandatory table entries",
  "After normalize() the drawing has the mandatory application id, block records, dimension style, layer, line types, text style and viewport entries, every entry present before is still present with its handle, tables are sorted by name, and the header's current-item names are non-empty.",
  "all drawings",
  "All starting contents.",
  ["src/drawing.rs: normalize, normalize_*, ensure_*_is_present_*, src/header.rs: Header::normalize"])
p("Normalizing settles",
  "Normalizing a second time changes nothing, except for the z components of the spacings of the view port *ACTIVE if the first time has added it; a third time changes nothing at all.",
  "all drawings",
  "All starting contents; uses case-insensitive or exact comparisons at several places.",
  ["src/drawing.rs: normalize"])
p("Referenced layers and line types exist after adding",
  "After adding an entity, a layer with the entity's layer name and a line type with its line type name exist in the drawing; adding does not create an entry that already exists.",
  "all drawings and entities",
  "All names and all prior contents.",
  ["src/drawing.rs: add_entity, ensure_layer_is_present, ensure_line_type_is_present"])
p("Clear empties the drawing",
  "After clear() all collections are empty, nothing can be found by handle, the header keeps everything but the next handle, and handle allocation restarts at the initial value; if the header has default values, a subsequent history behaves like that of an empty drawing.",
  "all drawings",
  "All prior contents.",
  ["src/drawing.rs: clear"])
p("Saved files have the documented section structure",
  "The pairs written for a drawing are a sequence of sections, each opened by 0/SECTION and 2/name and closed by 0/ENDSEC with no section marker inside it, in the fixed order HEADER, CLASSES, TABLES, BLOCKS, ENTITIES, OBJECTS, THUMBNAILIMAGE, followed by a single 0/EOF; sections not supported by the version are absent.",
  "all drawings and versions",
  "All contents.",
  ["src/drawing.rs: code_pairs, add_code_pairs"])
p("Unknown sections are skipped without side effects",
  "Inserting a section with an unknown name and arbitrary contents free of 0/ENDSEC between two sections of a file does not change the drawing read.",
  "all pair streams and all unknown section bodies",
  "All contents of the unknown section.",
  ["src/drawing.rs: read_sections, swallow_section"])
p("Unknown tables, entities and objects are skipped without side effects",
  "Unknown tables, entity types and object types are skipped up to the next item of the same level, and everything following them is read as if they were absent.",
  "all pair streams",
  "All contents of unknown items.",
  ["src/drawing.rs: swallow_table", "src/entity.rs: Entity::read", "src/object.rs: Object::read"])
p("Polylines keep their vertices and inserts keep their attributes",
  "Collecting a flat sequence of entities into polylines with vertices and inserts with attributes loses and duplicates nothing and keeps the order; flattening a collected sequence and collecting again gives the same result.",
  "all sequences of entities",
  "All sequences including missing terminators.",
  ["src/entity_iter.rs: collect_entities", "src/entity.rs: add_post_code_pairs"])
p("Errors in entity or object data are reported",
  "If the pair stream of a file contains a malformed pair inside the ENTITIES, BLOCKS or OBJECTS section, loading reports an error instead of silently returning a drawing with the remaining items missing.",
  "all inputs with a malformed pair",
  "All positions of the malformed pair.",
  ["src/entity_iter.rs: EntityIter::next", "src/object_iter.rs", "src/drawing.rs: read_entities"])
p("Every table entry survives a save/load",
  "For each of the nine symbol tables, an entry written for a version is read back with the same value in every field that version stores, and default in every other field.",
  "all entries, all versions",
  "Dozens of fields times 21 versions times all values.",
  ["spec/TableSpec.xml", "build/table_generator.rs"])
p("Every header variable survives a save/load",
  "Each header variable written for a version is read back with the same value, and variables not stored by the version read back as defaults (full claim: all variables; exceptions are listed).",
  "all header values, all versions",
  "About 250 variables times 21 versions times all values.",
  ["spec/HeaderVariablesSpec.xml", "build/header_generator.rs", "src/header.rs"])
p("Every generated entity survives a save/load",
  "For entity types whose reader and writer are fully generated, an entity written for a version that supports it is read back with the same value in every field that version stores (exceptions are listed per field).",
  "all entity values, all versions",
  "Some 40 entity types with hundreds of fields; field codes shadow each other.",
  ["spec/EntitiesSpec.xml", "build/entity_generator.rs", "src/entity.rs: Entity::read"])
p("Every generated object survives a save/load",
  "As for entities, for object types whose reader and writer are generated.",
  "all object values, all versions",
  "Dozens of object types.",
  ["spec/ObjectsSpec.xml", "build/object_generator.rs", "src/object.rs: Object::read"])
p("Flags occupy disjoint bits",
  "Setting one boolean flag property of an object never changes another flag property, and reading a flag back gives the value set.",
  "all flag words and all pairs of flags",
  "All 2^16/2^32 flag words.",
  ["spec/*.xml: Flag", "build/*_generator.rs: flag accessors", "src/enums.rs: ViewMode"])
p("Dimension type and its flag bits are independent",
  "Setting the dimension type preserves the ordinate and user-text flags and reading it back gives the type set; setting the flags preserves the type.",
  "all stored 16-bit values and all dimension types",
  "All 2^16 stored values.",
  ["src/entity.rs: DimensionBase::set_dimension_type, dimension_type"])
p("Colours classify consistently",
  "A colour is exactly one of by-layer, by-block, by-entity, turned off or an index; constructing from an index and asking for the index round-trips; a layer's colour and on/off state survive their combined signed encoding.",
  "all 16-bit raw colour values",
  "All values, including the negative extreme.",
  ["src/color.rs", "src/helper_functions.rs: read_color_value"])
p("File versions round-trip and order correctly",
  "The version text written in a file is read back as the same version (exception: R11 and R12 share one text), and the ordering of versions is the chronological one.",
  "all versions and all version texts",
  "Every version comparison in the library depends on the order.",
  ["src/enums.rs: AcadVersion"])
p("Thumbnail header reconstruction",
  "A bitmap stored without its file header is read back with a header whose file-length and data-offset fields are consistent with the stored bytes, and writing strips exactly what reading adds.",
  "all bitmap byte vectors",
  "All lengths, header sizes and palettes.",
  ["src/thumbnail.rs"])
p("DXB files round-trip",
  "Entities of the kinds supported by the binary DXB format written by save_dxb are read back in order with the same geometry (in single precision), layer and colour.",
  "all sequences of supported entities",
  "The reader is a state machine over layer, colour, scale and number mode.",
  ["src/dxb_reader.rs", "src/dxb_writer.rs"])
p("Coordinate lists are zipped completely",
  "Points stored as separate coordinate lists are recombined in order; no point is lost when the lists have equal length and the temporary lists are emptied.",
  "all coordinate lists",
  "Unbounded lengths.",
  ["src/helper_functions.rs: combine_points_2, combine_points_3", "src/entity.rs: post_parse"])
p("Transformation matrices round-trip",
  "A matrix built from the sixteen numbers written for another matrix equals it.",
  "all matrices and all element lists",
  "Index permutations over all values.",
  ["src/transformation_matrix.rs"])
p("Classes round-trip",
  "Class definitions written for any version with a CLASSES section are read back with the same stored fields, for both the old and the new layout.",
  "all classes, all versions",
  "Two layouts with different presence rules.",
  ["src/class.rs"])
p("Blocks round-trip",
  "A block definition, including its entities, written in the BLOCKS section is read back with the same stored fields (exceptions listed).",
  "all blocks, all versions",
  "All contents.",
  ["src/block.rs"])
p("Dictionaries round-trip and are written deterministically",
  "A dictionary object is read back with the same entries, and the written pairs depend only on the set of entries, not on insertion or hash order. In a dictionary from any source, every name refers to the last handle given for it, and flags, owner and default are those of the last pair with their code.",
  "all dictionaries, all sequences of pairs without groups",
  "Hash iteration order varies between runs.",
  ["src/object.rs: Dictionary custom reader/writer"])
p("Objects holding lists round-trip",
  "Objects storing variable-length lists (light lists, data tables, multi-line styles, x-records, sort tables, spatial filters) are read back with the lists they were written with (exceptions are listed as refuted). The data of an x-record from any source are all the pairs behind its marker, unchanged and in their order.",
  "all list contents",
  "Unbounded lists.",
  ["src/object.rs: custom readers and writers"])
p("Typed pointers only resolve to the right kind of item",
  "A typed reference set to an item and resolved through the drawing returns that item; setting a reference to an item of the wrong kind is an error and changes nothing; resolving never returns an item of another kind.",
  "all drawings, all items",
  "All handle collisions.",
  ["build/xml_helpers.rs", "src/drawing.rs: item_by_handle"])
p("Save then load returns the drawing",
  "Saving a drawing as a text or binary DXF and loading it gives a drawing with the same contents as the original after normalization, for every collection whose items round-trip individually.",
  "all drawings with distinct non-zero handles, all versions, both formats",
  "Composition of every other property.",
  ["src/drawing.rs: save, save_binary, load"])
p("Old versions never receive newer features",
  "The pairs written for a version contain no pair belonging to a feature introduced later: no OBJECTS section before R13, no extended data before R2000, no subclass markers in entities before R13, no entity types unsupported by the version.",
  "all drawings and versions",
  "All contents times all versions.",
  ["src/drawing.rs", "src/entity.rs", "src/x_data.rs", "build/entity_generator.rs"])
p("Dates survive in whole seconds",
  "A date not before 1900 stored as a Julian day number and read back differs by less than the documented resolution; dates out of range are clamped to the epoch and never fail.",
  "all dates and all doubles",
  "All values.",
  ["src/helper_functions.rs: as_double, as_datetime"])
p("Light-weight polyline vertices survive a save/load",
  "A light-weight polyline is read back with the same number of vertices and the same coordinates, widths, bulges and identifiers in order.",
  "all vertex lists, all versions",
  "Unbounded lists with optional per-vertex pairs.",
  ["src/entity.rs: LwPolyline custom reader and writer"])
p("Identifiers (UUIDs) survive their textual form",
  "A UUID written in hyphenated form, with or without braces, is read back unchanged; anything else yields the nil UUID and never fails.",
  "all 128-bit identifiers and all strings",
  "2^128 values.",
  ["src/helper_functions.rs: as_uuid, uuid_string"])
p("Loading ends on every input",
  "Loading a file ends, with a drawing or an error, whatever the file contains.",
  "all sequences of code pairs and malformed pairs",
  "Termination on all inputs cannot be tested.",
  ["src/drawing.rs: load_from_iter, read_sections", "src/block.rs: read_block", "src/entity_iter.rs", "src/object.rs: apply_custom_reader_sectionsettings"])
p("Loading never panics",
  "Loading a file never panics, whatever the file contains.",
  "all sequences of code pairs and malformed pairs",
  "All inputs.",
  ["src/drawing.rs: load_from_iter", "src/header.rs", "src/entity.rs", "src/object.rs", "src/helper_functions.rs"])
p("Values have the documented type of their code",
  "Every pair written for a drawing has a value of the type that the documentation gives for its code, so that both file formats can store it and a reader can interpret it.",
  "all drawings and versions",
  "All contents.",
  ["src/drawing.rs: code_pairs", "src/code_pair_value.rs", "build/entity_generator.rs", "build/object_generator.rs", "build/table_generator.rs", "build/header_generator.rs"])
p("Text and binary files of a drawing hold the same drawing",
  "Saving one drawing as text and as binary and loading both files gives equal drawings (full claim: for every drawing that can be saved; known exceptions are values only one of the formats keeps, such as doubles with more than twelve decimals).",
  "every drawing whose pairs both formats can store, every version and environment",
  "The two formats have separate writers and separate readers; a test compares them on the values it happens to use.",
  ["src/drawing.rs: Drawing::save, Drawing::save_binary, Drawing::load", "src/code_pair_writer.rs: write_ascii_code_pair, write_binary_code_pair", "src/code_pair_iter.rs: CodePairIter::next"])
p("A plain file loads the same under every encoding",
  "A file of bytes below 128 without backslashes gives the same drawing, or the same error, whatever encoding Drawing::load_with_encoding is given and wherever the header switches to UTF-8 (full claim: every ASCII file; known exceptions are files with backslashes, which only Windows-1252 takes for escapes).",
  "every sequence of such bytes, every pair of encodings",
  "The encoding reaches every line reader, the escape decoder and the switch in the header; tests run with one encoding.",
  ["src/drawing.rs: Drawing::load_with_encoding", "src/code_pair_iter.rs: TextCodePairIter::read_code_pair, read_as_utf8", "src/helper_functions.rs: read_line"])
p("A file cut short is reported",
  "If only the beginning of a file is there, loading it fails or gives the drawing of the whole file (full claim: for every file; known exceptions are text and binary files cut between two sections, which load without the sections that are missing).",
  "every sequence of bytes and every point to cut it at",
  "There are as many cuts as bytes, and each lands in another state of another reader; tests try none or one.",
  ["src/drawing.rs: Drawing::load_from_iter, Drawing::read_sections", "src/dxb_reader.rs: DxbReader::load"])
p("Items added to a loaded file get handles of their own",
  "In a drawing that was loaded, the next handle to be given is used by no item, and stays unused by any through further additions, so an item that is added gets a handle of its own (full claim: for every file; known exception: files with a handle that is not below the next one, as their $HANDSEED is missing or too low, since loading does not look at the handles it finds).",
  "every sequence of bytes, every encoding, every sequence of additions and normalizations",
  "Handles come from every item's reader and from the header, which may be anything; tests load one file with a seed above all its handles.",
  ["src/drawing.rs: Drawing::next_available_handle, Drawing::add_entity, Drawing::add_object, Drawing::read_sections", "src/entity_iter.rs: EntityIter::next", "src/object_iter.rs: ObjectIter::next"])
p("What can be loaded can be saved",
  "A drawing loaded from any file can be saved as text and as binary, also after it has been given another version, normalized, cleared, had items removed or items of other loaded drawings added; the only exception are data tables of irregular shape under a version that has data tables, and with these both saves panic.",
  "every sequence of bytes, encoding and version, every drawing made from such drawings",
  "The writers index into vectors and match on values that the readers leave to the file; a test tries files somebody thought of.",
  ["src/drawing.rs: Drawing::load_with_encoding, Drawing::save, Drawing::save_binary", "src/object.rs: add_custom_code_pairs, apply_custom_reader_datatable", "src/dxb_reader.rs: DxbReader::load"])
p("Group codes mean what the DXF reference says",
  "A field of an entity, object or table item that the reference documents is, after reading, what the last pair with the documented code says, or the documented default; documented pairs are always accepted; and when written, the pairs under the code carry the field, which is there unless it has its default (full claim: for all types and codes of the reference; known exceptions are the suppressed dimension lines, the handle and the zero suppression of dimension styles, the clipping boundary of wipeouts, and three codes shared when writing).",
  "the 39 entity types, 21 objects and 9 tables listed in DocSpec.v and RestSpec.v, layouts, attributes before and behind their record marker, all sequences of pairs without groups, all entities, objects and items without groups",
  "Reader and writer share one specification: with a code swapped in it, everything still round trips and only files of other programs are misread.",
  ["spec/EntitiesSpec.xml", "spec/ObjectsSpec.xml", "spec/TableSpec.xml", "build/entity_generator.rs: generate_try_apply_code_pair, generate_write", "build/table_generator.rs", "src/entity.rs: EntityCommon"])
p("Header variables mean what the DXF reference says",
  "A documented header variable is, after reading, the last value given to it or that of a new header; any sequence of documented variables is accepted; a header that is written has the variable with the value of the field (full claim: for every variable and every value of the reference; known exceptions are flags other than 0 and 1, and the zero suppression).",
  "the 268 variables (by code) listed in DocSpec.v, all sequences of pairs, all headers",
  "Reader and writer share one specification: with a name or code wrong in it, everything still round trips and only files of other programs are misread.",
  ["spec/HeaderVariablesSpec.xml", "build/header_generator.rs: generate_set_header_value, generate_add_code_pairs", "src/header.rs: Header::read"])
p("What follows the end mark is ignored",
  "A text file whose last lines are 0 and EOF and that can be loaded gives the same drawing with any bytes appended to it, such as the padding of old systems, a second file or garbage; so does a binary file of well-formed pairs that ends with 0/EOF, and so does every saved drawing.",
  "every sequence of bytes that is a file, every sequence of bytes behind it, every encoding",
  "The readers look ahead, skip malformed items and may switch the encoding on the way; whether any of them runs past the end mark depends on the whole file.",
  ["src/drawing.rs: Drawing::read_sections, Drawing::load_from_iter", "src/entity_iter.rs", "src/object_iter.rs", "src/code_pair_put_back.rs: CodePairPutBack", "src/code_pair_iter.rs"])
p("Each section of a file fills its own part of the drawing",
  "If every section of a file, alone behind the header, makes a file that can be loaded, the whole file can be loaded, and its entities, blocks, classes, thumbnail, objects and table entries are those of the sections in turn, whatever stands between them; what a section adds for others are only layers, line types and other table entries, multi-line styles and handles. So sections of different names may come in any order, except that tables that come after the entities on their layers give those layers twice.",
  "every header, every list of sections without a pair 0/ENDSEC inside, as pairs, text and binary",
  "The readers of all sections change one drawing and look at parts of it that other sections fill; tests have one order of sections and one or two of them.",
  ["src/drawing.rs: Drawing::read_sections, Drawing::read_entities, Drawing::read_objects, Drawing::ensure_layer_is_present", "src/table.rs", "src/block.rs: Block::read_block", "src/class.rs: Class::read_classes", "src/thumbnail.rs"])
p("The pairs of an item may come in any order",
  "An entity, an object or a table item reads the same whatever the order of its pairs, as long as pairs with the same code keep theirs, and a file with its entities so rearranged gives the same drawing. The exceptions are known and the list of them is exact: attributes and attribute definitions, dimensions, light-weight polylines, multi-line texts; layouts, materials, multi-line styles, sort tables; and the fields of dimension styles and view ports that have two codes.",
  "every type of entity and of table item, every object without a reader of its own, all pairs outside of groups (102, 1001), every file around them, as pairs, text and binary",
  "A test reads the order one program writes; the number of orders is the factorial of the number of pairs.",
  ["build/entity_generator.rs: generate_try_apply_code_pair", "build/object_generator.rs", "build/table_generator.rs", "src/entity.rs: Entity::apply_custom_reader_*", "src/object.rs: apply_custom_reader_*", "spec/EntitiesSpec.xml"])
p("Group codes an item has no meaning for are ignored",
  "Pairs whose code the type of an entity, object or table item does not use can be put anywhere in it or taken out: it reads as before, and the drawing loaded from the file is the same.",
  "every type of entity and of table item, every object without a reader of its own, all pairs outside of groups, every value of the extra pairs, every file around them, as pairs, text and binary",
  "Which codes are unused differs for every type; files of later versions have codes that no test has.",
  ["build/entity_generator.rs: generate_try_apply_code_pair", "build/object_generator.rs", "build/table_generator.rs", "src/entity.rs: Entity::read, EntityCommon::apply_individual_pair", "src/object.rs: Object::read"])
p("Saving what was loaded writes what was saved",
  "An entity, object, table entry, block head or class that is written for a version, read back and written again for that version gives the pairs of the first time, up to the sign of zeros. The exceptions are known and the list of them is exact: twelve types of entities, fifteen of objects, and view ports since R2007, whose own UCS is gone the second time.",
  "every type of entity and table entry, every object without a reader of its own, block heads and classes, all values that fit the codes, every version that supports the type, with and without handles",
  "Whether a field that is written depends on one that is not can only be seen over all fields and versions; tests compare one file with one drawing.",
  ["build/entity_generator.rs: generate_write_code_pairs", "build/object_generator.rs", "build/table_generator.rs", "spec/TableSpec.xml: ViewPort", "src/entity.rs", "src/object.rs", "src/block.rs", "src/class.rs"])
p("What a drawing refers to by name is in it",
  "In a drawing loaded from any file whatsoever, and in whatever is made of it or of a new drawing by adding items and normalizing, the layer and line type of every entity exist, as do its dimension, text or multi-line style, the line type of every layer, the layer and the record of every block with the layers and line types of the entities in it, the layers of layer filters and indexes and the view of plot settings. Exceptions: removed items, the styles of entities inside blocks, and the blocks that inserts name.",
  "every sequence of bytes and encoding, text, binary or DXB; every history of additions and normalizations after that",
  "The table sections may come last, be incomplete or be missing; each item is added by another function which must make what it names.",
  ["src/drawing.rs: Drawing::add_entity_no_handle_set, Drawing::add_object_no_handle_set, Drawing::add_block_no_handle_set, Drawing::ensure_*_is_present*, Drawing::normalize, Drawing::load_from_iter", "src/dxb_reader.rs: DxbReader::load", "src/table.rs"])
p("The items of a saved file have handles of their own",
  "A saved file gives, in the order of the drawing, the handle of every entry, block, entity, attribute, vertex, end of a sequence and object that its version knows, and no other. For a drawing made by adding and removing items no two of these are the same, all are above 0 and below the next handle to be given out, and that one is in the header as $HANDSEED. Exceptions: the end of a block has the handle of the block (before R13 the block itself gives none), the texts of attributes have handle 0, and the vertices of polylines inside of blocks share one handle.",
  "every history of additions and removals, all header settings, every version, with handles",
  "The handles are given out by the drawing, kept in the items and written by the writer of each type; a test compares one item with the expected pairs.",
  ["src/drawing.rs: Drawing::code_pairs, Drawing::next_handle", "src/entity.rs: Entity::add_code_pairs, add_code_pairs_attribute_m_text, add_code_pairs_seqend", "src/object.rs: Object::add_code_pairs", "src/block.rs: Block::add_code_pairs", "build/table_generator.rs", "src/header.rs"])
p("Repeated group codes are lists, in the order of the pairs",
  "Where the DXF reference repeats a group code, the field is the list of all values under it, in the order of the pairs and whatever stands between them: knots, weights, vertices, directions, members of a group, layers of a filter, texts of a solid, dashes of a line type, entities and places of a sort table, pieces of binary data. Points are put together from the k-th values of their codes; the vertices of lightweight polylines are the pairs from one 10 to the next. Written, the pairs under the code are the elements of the field in their order. The exceptions are known: points of multi-lines and underlays, id buffers and section managers are written differently, and the boundary of a wipeout is not read.",
  "all sequences of plain pairs after the type, in any mixture; all lists; every version from R2000 on that has the type; twelve types of entities, seven of objects, line types",
  "Tests have one or two elements, side by side; a list that is filled from the wrong code, reversed, or paired up wrongly when the codes are mixed differently looks the same there.",
  ["build/entity_generator.rs: generate_try_apply_code_pair, generate_write_code_pairs", "build/object_generator.rs", "build/table_generator.rs", "src/entity.rs: combine_points_2, combine_points_3, EntityCommon", "src/entity.rs: MLine, Image, Leader, Spline, Underlay post-parse functions", "spec/EntitiesSpec.xml", "spec/ObjectsSpec.xml", "spec/TableSpec.xml"])
p("A dimension is what its subclass marker says",
  "A DIMENSION is of the kind that the first subclass marker naming one of the five kinds of the library announces: aligned or rotated, radial, diametric, three-point angular, ordinate. The fields all dimensions have are what the last pairs before that marker say, the fields of the kind what the last pairs behind it say, and the fields of all entities what the last pairs on either side say; code 70 is the type plus 32, 64 and 128 for its three properties. Whatever the reference allows there is accepted. Written, a dimension is its common fields, the marker and the fields of its kind, under the same codes. A dimension without such a marker is passed over as if it were not there; the angular dimension between two lines, a sixth kind in the reference, is therefore lost.",
  "the five kinds, all sequences of plain pairs before and behind the marker, any further markers; all field values; every version from R2000 on for writing",
  "Five types share one reader, in which a code means something else, or nothing, depending on whether and which marker came before; tests have one dimension of each kind in the usual order.",
  ["src/entity.rs: Entity::read, DimensionBase::set_dimension_type, DimensionBase::dimension_type", "build/entity_generator.rs: generate_try_apply_code_pair, generate_write_code_pairs", "spec/EntitiesSpec.xml: DIMENSION"])
here = os.path.dirname(os.path.abspath(__file__))
with open(os.path.join(here, "..", "properties.jsonl"), "w") as f:
    for x in P: f.write(json.dumps(x, ensure_ascii=False) + "\n")
print(len(P))
