# Formal model of dxf-rs: design

## 1. Approach

The model is a set of total Gallina functions, written function by function from
the Rust source in /repo. `&mut self` methods return the new value, `Result` is
`res A := Ok a | Err e`, panics are an explicit error value (`Err Panic`), loops are structural
recursion or fuel with an explicit error (`Err OutOfFuel`) that the theorems exclude; where a loop
of the code really does not end, `OutOfFuel` for every amount of fuel says so (C53).
Each definition cites file and lines of the code it models, and says where it simplifies.

* A Rust `String` is a list of Unicode scalar values (`rstring`), a `Vec<u8>` / file is a list of bytes, both `list N`.
* `i16/i32/i64/u64` are `Z`/`N` with explicit range predicates; casts (`as i16`, `as u8`) are
  explicit wrap-around functions.
* `f64` and `f32` are their bit patterns. Text and narrowing use exact integer arithmetic (round to nearest even).
* The generated code (tables, header, entities, objects) is modelled as an *interpreter* (SpecModel.v, HeaderModel.v)
  of data: `tools/gen_spec.py` translates spec/*.xml to the Coq terms in TableData.v, HeaderData.v,
  EntityData.v and ObjectData.v, and the interpreter models what the generators in build/*.rs emit.
  Hand-written readers and writers of single types (src/entity.rs, src/object.rs) are either expressed in the same data or,
  where they do not fit, functions of their own (CustomModel.v).
  Round-trip theorems are proved once for all data that passes a decidable check (SpecCheck.v, with a proof that the
  check is sound), and the check is evaluated on the real data inside Coq.
* A pair stream is a list of `res pair`: the pairs a reader delivers, with an error where one is malformed. The whole file is
  read and written by FileModel.v (pairs) and SaveModel.v (bytes).
* Reader failures inside an iterator that swallows them: what the reader has consumed by then is derived from the reader itself
  (`after_error`: the shortest beginning of the input on which it already fails).

Layout: `*Model.v` (definitions only), `*Data.v` (generated data), `*Spec.v` (the vocabulary of the statements, independent of the
model's functions), `*Proofs.v` (lemmas), `*Props.v` (the theorems, each with an `Example` that its
hypotheses are met and a `Print Assumptions`). `*Check.v`/`*Witness.v` hold decision procedures and concrete drawings.

`_partial` in a name: the statement of the property is restricted, the comment says by what. `_refuted`: the statement, or a natural reading of it,
is false of the code; the theorem exhibits a case.

## 2. Properties

The statements are in properties.jsonl, the exact coverage of each in MANIFEST.json.

@@PLAN@@

## 3. Trusted base

* Coq 8.16.1's kernel, including `vm_compute`. No axioms, of the standard library or otherwise (section 5).
* That the Gallina definitions say what the Rust code does. This is by inspection; the citations are there to check it.
* That `tools/gen_spec.py` and `tools/gen_flags.py` translate spec/*.xml, src/entity.rs and src/object.rs as they should. The generated files are
  committed; the build does not run the tools.

Modelled (file by file):

| source | modelled | in |
|--------|----------|----|
| src/code_pair.rs, code_pair_value.rs, expected_type.rs | constructors, types per code, `Display`, escapes, assertions | TextModel, CodePairModel |
| src/code_pair_iter.rs, helper_functions.rs `read_line` | text and binary iterators, offsets, switch to UTF-8 | CodePairModel |
| src/code_pair_put_back.rs | push-back stack, comments | StreamModel |
| src/code_pair_writer.rs | text and both binary forms | CodePairModel |
| src/helper_functions.rs | number parsing and formatting, dates, uuids, hex, matrices of points, defaults | TextModel, F64Model, DateModel, UuidModel, GeometryModel |
| src/handle.rs, color.rs, line_weight.rs, enums.rs | handles, colours, enum conversions | TextModel, BitsModel, EnumData |
| src/extension_data.rs, x_data.rs | all | ExtDataModel |
| src/drawing.rs | all but the file system: adding, removing, normalizing, lookup, clear, load, save | DrawingModel, FileModel, SaveModel |
| src/drawing_item.rs, pointers | handle lookup, generated accessors | DrawingModel |
| src/entity.rs, entity_iter.rs, build/entity_generator.rs | all types; readers, writers, gathering of vertices and attributes | SpecModel, EntityData, CollectModel, FileModel |
| src/object.rs, object_iter.rs, build/object_generator.rs, data_table_value.rs, section_*_settings.rs, table_cell_style.rs | all types | SpecModel, ObjectData, CustomModel |
| src/table.rs, build/table_generator.rs | the nine tables | SpecModel, TableData, FileModel |
| src/header.rs, build/header_generator.rs | all variables | HeaderModel, HeaderData |
| src/block.rs, class.rs | all | SectionData, FileModel |
| src/thumbnail.rs | the bytes; not the image decoding | ThumbnailModel |
| src/transformation_matrix.rs, point.rs, vector.rs | construction and serialization | GeometryModel, CustomModel |
| src/dxb_reader.rs, dxb_writer.rs, dxb_item_type.rs | all | DxbModel, F32Model |

Not modelled: the file system and `BufReader`/`BufWriter` (a file is its bytes); `encoding_rs` beyond Windows-1252, UTF-8 and byte order marks (a line that is not
valid UTF-8 is an error, as in the code); the `image` crate (a thumbnail is its
bitmap bytes); `chrono` beyond the proleptic Gregorian calendar and local = UTC; `Uuid::new_v4` and the current time (an environment the theorems quantify over);
`serde`; `Display`/`Error` of `DxfError`; the iteration order of hash sets and maps (quantified over); memory limits. The 64-bit handle counter is unbounded in the
operations of DrawingModel.

## 4. Findings

Where the code does not do what its users would expect. Each is a theorem ending in `_refuted` unless marked *by reading*.

Text and numbers
* Text before R2007: a string that contains `\U+` or ends in a partial escape is not read back (C03); the same name reads differently under UTF-8 (C57).
* 16-bit integers out of range are clamped silently when read (C04). Handles of more than 16 hex digits lose their leading ones (C05).
* Doubles are written with twelve decimals, so most do not come back exactly; in particular angles of a default header (C07, C48, C56).
* Binary files: strings containing NUL, binary chunks above 255 bytes and booleans above one are not read back (C10).
* Two carriage returns before a line feed shift lines (C11). A comment that is not UTF-8 makes a file from 2007 on unreadable (C14). Offsets of binary files are two too small (C13).
* Dates: the round trip is to within one second, and repeated saving can move a date by several seconds; infinities, dates after 9999 or so and some long durations panic or are wrong (C50).

Extension data
* An empty extension group is lost (C16).

Drawings
* Cloning a polyline and adding it again gives two sets of vertices with the same handles; members of blocks get no SEQEND handle (C19).
* Normalizing is not idempotent: the z spacings of the view port `*ACTIVE` change the second time (C23). `normalize` duplicates block records (C24). `clear` keeps the header (C25).
* Reading never moves the handle counter beyond the handles read, so the layers and line types made while loading, and items added later, can share handles with existing ones (C59; src/drawing.rs 1065-1089).

Files
* Section entities are written as 0/SECTION, classes named ENDSEC (to R13) and caller-supplied 0 pairs look like structure (C26, C43, C44).
* CLASSES and subclass markers are written for versions that have none (C49).
* Errors inside entities and objects end the iteration silently: the last pair of a section, a vertex, anything in a block (C30).
* A file cut between two sections loads as if the rest had never been (C58).
* Tables that come after the entities give the layers in use twice (C64).
* Types whose pairs depend on their order, among them fields with two codes of which the last one wins (C65).
* A BLOCK that is not closed before the end of the section makes the reader loop forever (C53), and so do section settings without end (C46).
* Certain dates, colours, data tables, thumbnails and hours panic the reader (C54, C37, C39, C46).
* A data table without rows, or with a value in a column without a name, loads but makes every save from R2007 on panic (C60; src/object.rs 1490-1542).
* The hours of a SunStudy are 16-bit integers under the boolean code 290 (C55).

Items
* Dimension styles: 281 and 282 (DIMSD1, DIMSD2) are taken for 75 and 76 (DIMSE1, DIMSE2), the handle under 105 is not read, values of DIMZIN above 3 become 0 (C61).
* Wipeouts: the y coordinates of the clipping boundary (24) are not read, so the boundary is lost (C61; spec/EntitiesSpec.xml gives them code 12).
* Underlays: the y coordinates of the clipping boundary are written under 12 instead of 21, so the boundary is lost. Multi-lines: vertices, segment and miter directions are read from 11, 12, 13 but written to 10, 11, 12, so the directions come back as vertices (C70; spec/EntitiesSpec.xml:657-690).
* Attributes and attribute definitions: R2007 files have the lock (280) but not the version (280 from R2010), and the reader takes the first 280 for the version:
  a locked attribute comes back unlocked (C61, C33; src/entity.rs:805-950, spec/EntitiesSpec.xml:196, 271).
* Sort tables: the block (330 behind the marker) takes the place of the owner (330 before it), which is not written again (C61; src/object.rs:1147-1185).
* Proxy entities and proxy objects: the owner (330) is read as one of the identifiers and written among them; the owner itself stays 0 (C61, C70; spec/EntitiesSpec.xml:99).
* OLE frames and proxies: the preview of the entity (310) is written before their own data (310 too) and read as part of it (C70; spec/EntitiesSpec.xml:7-50, 802-825).
* Layouts: the page setup (the pairs before AcDbLayout: paper, margins, printer) is neither kept nor written (C61; src/object.rs:511-525).
* Materials: the file of the specular map (4) is read as that of the normal map, and the gloss factor (44) is never written. Fog: the three values of the colour (280) are all taken for red, likewise the other repeated codes of render environments and settings (C61; src/object.rs:700, spec/ObjectsSpec.xml:409).
* Header: flags that are documented as "nonzero" are off for any value but 1; values of $DIMZIN above 3 become 0 (C62).
* Layers: the flags for frozen and locked layers (70) are neither read nor written (*by reading*; spec/TableSpec.xml).
* Table entries: the owner is never written; separator characters above 255 and integers beyond their code are cut (C31).
* View ports: since R2007 the own UCS is written if `has_own_ucs` is set but the flag itself is not, so the UCS is lost when the file is saved a second time (C67).
* Angular dimensions between two lines (AcDb2LineAngularDimension) are not read; nor is any dimension without a subclass marker (C71; src/entity.rs:526-600).
* Header: R11 reads as R12, DIMATFIT, HALOGAP and XCLIPFRAME do not survive, wide integers are cut (C32).
* Entities: twenty exceptions, listed in EntityProps.v; rotated dimensions vanish before R13 (C33). Inserts with attributes fall apart from R13 on (C29, C48). The common
  properties of vertices and attributes, and their handles, are lost (C48). Multi-line styles are referred to twice (C48).
* Objects: light lists, id buffers, section managers, multi-line styles, x-records, data tables, section settings, table styles, spatial filters and sun studies lose data (C34, C42, C45, C46).
  Of every data table that is read, only the first row can have values (C46_data_table_first_row_only).
* Blocks: extended data and the handles of members are lost (C44).
* Handles: ENDBLK repeats the handle of its BLOCK, which itself gives none before R13; the text of an attribute is written with handle 0; the vertices and the end of a polyline inside
  of a block are written with the handles FFFFFFFFFFFFFFFF and 0 (C69; src/block.rs:199-260, src/entity.rs:1595-1612).
* References: the styles of entities inside blocks and the blocks that inserts name are not made when they are missing; a multi-line style gets a line type and a text style of its own
  name instead of the line types of its elements (C68; src/drawing.rs:839-843, 865-869).
* Proxy version accessors write the wrong half of the word (C35). Index 0 and raw values above 257 are no colour, or two (C37).
* DXB: a drawing with blocks is unreadable or loses its entities; heights, bulges and layer names beyond Latin-1 are lost (C40). `read_u` multiplies by 65536 where the
  format divides, `read_w` also scales widths (*by reading*; src/dxb_reader.rs).

## 5. Assumptions per theorem

`Print Assumptions` of all @@COUNT@@ theorems says "Closed under the global context".

```
@@THEOREMS@@
```
@@@PLAN ROWS@@@
C01 | escape_control_characters, un_escape_string | induction on the string, two-state decoder
C02 | the same, escape_unicode_to_ascii, the writers | Forall over the output, case analysis on the character
C03 | escape_unicode_to_ascii, un_escape_ascii_to_unicode | induction with a window lemma; an exact condition
C04 | Display of integers, parse_i16/i32/i64 | induction on decimal digits; i16 by exact parsing as a double
C05 | Handle::as_string, as_handle, parse_hex_string | induction on base-16 digits
C06 | `{:02X}` and parse_hex_string | induction on bytes
C07 | format_f64, parse_f64 on bit patterns | exact rational arithmetic on Z
C08 | ExpectedType::new, both readers | case analysis; table against an independent list of ranges
C09 | write_ascii_code_pair, read_line, TextCodePairIter | induction on the pair list
C10 | write_binary_code_pair, BinaryCodePairIter | induction on the pair list, per format
C11 | read_line and load_bytes | induction on lines; simulation of the readers for the drawing loaded
C12 | both iterators as functions from bytes to steps | strict decrease of the remaining length
C13 | offset bookkeeping | invariant over the iteration
C14 | CodePairPutBack and comments; load_bytes | refinement to a filtered list, for any reader of the stream; for bytes a relation between readers that stand at corresponding lines of the two files
C15 | CodePairPutBack | refinement to a plain list
C16 | ExtensionGroup reader and writer | mutual induction on trees
C17 | XData reader and writer | mutual induction on trees
C18 | the same readers on arbitrary input | fuel measure, induction on the stream
C19 | all operations of Drawing | invariant over histories
C20 | item_by_handle | invariant, case analysis per collection
C21 | remove_* | list lemmas for twelve collections
C22 | normalize | invariants through its steps
C23 | normalize | equational reasoning about a second and third run
C24 | add_entity, add_object, add_block, add_layer | case analysis per reference
C25 | clear | case analysis
C26 | save's pairs, all writers | grammar of sections, induction over writers' data by a checked table
C27 | read_sections, swallow_section | fuel-independent reading, induction on the body
C28 | read_entities, read_objects, read_table, read_block | induction on item sequences
C29 | collect_entities, add_code_pairs | induction on the entity list
C30 | EntityIter, ObjectIter and what they leave | a failing reader takes at most the first malformed pair
C31 | spec interpreter on the tables | generic round trip, check evaluated on the data
C32 | header interpreter | per-variable check evaluated on the data
C33 | spec interpreter on the entities | generic round trip, check evaluated on the data; a witness per exception
C34 | spec interpreter on the objects | the same
C35 | flag accessors | N.testbit algebra, check on data generated from the sources
C36 | dimension words | case analysis over ranges
C37 | Color | case analysis over ranges
C38 | AcadVersion | case analysis
C39 | thumbnail | list algebra, little-endian encoding
C40 | DxbWriter, DxbReader | induction on items; an independent notion of nearest single
C41 | combine_points | induction
C42 | TransformationMatrix | computation with abstract values
C43 | Class reader and writer | generic round trip, two layouts
C44 | Block reader and writer | composition of C33 with the block loop
C45 | Dictionary objects | induction on entries, sorted order; for reading, induction on the pairs against DictSpec.v
C46 | custom objects | induction per list
C47 | pointer accessors | lookup lemmas
C48 | load, save, save_binary | composition of all round trips with C09/C10
C49 | version gates | Forall over written pairs, checked data
C50 | date conversion | exact arithmetic on doubles
C51 | LwPolyline | instance of C33
C52 | uuid text | induction on digits
C53 | load and load_dxb | decreasing length of what is left, for arbitrary input
C54 | load and load_dxb | errors of every reader are reports or its own
C55 | save's pairs | check on the data, induction for the custom writers
C56 | save_text, save_binary, load_bytes | both files give back the pairs written, load is a function of them
C57 | load_bytes | simulation of the readers of the two encodings, line by line
C58 | load_bytes, load_dxb | what is accepted does not depend on what follows (DXB); every section passed is closed (DXF)
C59 | load_bytes, all readers of items, add_*, normalize | handles come from 5 and 105 pairs outside the header or from the counter, which only grows: invariant of the readers with a predicate on handles; for drawings made by adding and removing, then saved and loaded, the pairs of the file are shown to hold only handles of the drawing, all below the counter in the header, which comes back
C60 | load_bytes with all readers, load_dxb, add_*, remove_*, normalize, clear, save_text, save_binary | an invariant on the shapes of all fields, computed from the commands of the writers and checked against the arms of the readers by computation; closed under every operation
C61 | read_entity, read_item, write_entity, write_typed, write_titem over EntityData.v, ObjectData.v and TableData.v | a table written from the reference (DocSpec.v, RestSpec.v); that a specification has exactly one arm and one command per row is checked by computation, and the check is sound for all sequences of pairs by induction. Layouts (LayoutSpec.v) and attributes (AttribSpec.v) as dimensions in C71, in two phases
C62 | read_header, set_header_value, write_header over HeaderData.v | as C61, tracking the last value of the variable through the loop; two passes because of the switch to UTF-8
C63 | load_bytes with all readers | every reader is local: what it returns depends on the pairs it took and at most one more (LocalProofs.v, by induction for each reader); the readers of a file and of the longer one go in step up to the mark
C64 | load, load_bytes with the readers of all sections | each section's reader is a list of items put one by one into the drawing, the list depending on the drawing only through its version (section_effect); read sections are exact by locality (C63), so the files compose; induction over the list of sections
C65 | read_entity, read_object, read_item of table items over EntityData.v, ObjectData.v, TableData.v; load, load_bytes | reading an item outside of groups is a fold over its pairs; for types whose arms have no conditions and write each field under one code only (computed for all types) the fold restricted to a field depends on the pairs of one code; two files with such entities are read in lockstep (OrderFileProofs.v)
C66 | as C65 | a pair without an arm leaves the fold as it is; the codes with an arm are those listed in OrderSpec.v (computed for all types); files as in C65
C67 | write_item, read_item over EntityData.v, ObjectData.v, TableData.v, SectionData.v | from C31, C33, C34: a command writes the same if the fields it writes and those its conditions look at come back; computed for all types and versions (StableProofs.v `again`, sound by induction over commands); every remaining type has a witness that differs
C68 | load_bytes, load_dxb, put_*, push_*, add_*, ensure_*, normalize | the property is kept by growing tables and by each addition, so by every effect of a section (SectionsProofs.v), induction over sections and over histories of additions; normalizing by C22's description of it
C69 | code_pairs with all write_* functions, add_*, remove_*, next_handle | every item is a 0 pair, its handle and pairs of other codes (computed for the commands of all types), so the declared handles of the parts append; those of a drawing are within the handles of C19, which differ; hexadecimal strings are injective (C05)
C70 | read_item, write_item, post-parse combination of points, over EntityData.v, ObjectData.v, TableData.v | which arms push onto a list and which write commands give its codes is computed for every listed type (ListProofs.v); induction over the pairs for reading, over the elements for writing; ListSpec.v gives the codes from the DXF reference, the exceptions are refuted. Binary data: PieceSpec.v says which fields the pairs 310 belong to, for every type of entity. Vertices of lightweight polylines: VertexSpec.v divides the pairs at every 10; invariant of the fold over pairs for a vertex under construction
C71 | read_entity for DIMENSION, read_dimension, write_entity over the five dimension types of EntityData.v | the run of the reader has two phases, in each of which the arms whose guards hold are fixed (computed for each type and kind); induction over the pairs of each phase. DimensionSpec.v gives markers and codes from the DXF reference. For writing the commands are divided at the marker
