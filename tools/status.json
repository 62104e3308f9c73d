{
 "C01": ["proved", "all strings"],
 "C02": ["proved", "all strings, text and binary output; control characters are those below 32"],
 "C03": ["partial", "false in general (C03_unicode_refuted); proved under the exact condition"],
 "C04": ["partial", "32- and 64-bit complete; 16-bit values out of range are clamped (C04_i16_range_refuted)"],
 "C05": ["partial", "all handles and all spellings up to 16 digits; longer spellings are misread (C05_leading_zeros_refuted)"],
 "C06": ["proved", "all byte vectors"],
 "C07": ["proved", "all three parts: exactness for 4096ths, nearest of twelve decimals, identity refuted"],
 "C08": ["proved", "all inputs of both readers"],
 "C09": ["partial", "all sequences of typed pairs with faithful values (text_faithful)"],
 "C10": ["partial", "all sequences with faithful values (binary_faithful); the exceptions are refuted"],
 "C11": ["partial", "blanks complete; line ends, up to the drawing loaded, for files without CR CR and without UTF-16 marks at line starts"],
 "C12": ["proved", "all byte sequences, both readers"],
 "C13": ["partial", "text complete; binary positions are two too small (refuted), proved with that correction"],
 "C14": ["proved", "all sources, all readers of the stream; down to bytes for text files of readable pairs (in files with errors their positions change)"],
 "C15": ["proved", "all sources, all readers and all interleavings"],
 "C16": ["partial", "all non-empty groups; empty groups are lost (C16_empty_group_refuted)"],
 "C17": ["proved", "all items, all versions"],
 "C18": ["proved", "all names and streams, for extension groups and extended data"],
 "C19": ["proved", "All histories of adding (every kind), removing, normalizing, taking handles for vertices and attributes, and edits that leave handles alone, from Drawing::new(). The 64-bit counter is modelled as unbounded. Refuted: cloned polylines share the handles of their vertices; SEQEND and vertices of polylines inside blocks get no handle."],
 "C20": ["proved", "Every item of a reachable drawing is found by its handle; for any drawing, what is found is there and has the handle, and what is not found is not there; zero finds nothing in reachable drawings."],
 "C21": ["proved", "All twelve collections."],
 "C22": ["proved", "For any order in which the hash set of coordinate system names is gone through."],
 "C23": ["proved", "Plain idempotence is refuted (the z spacings of the view port *ACTIVE); what changes the second time is stated exactly, and the third time nothing changes."],
 "C24": ["proved", "Entities (layer, line type, dimension, text and multi-line style), objects, blocks and layers. Block records are duplicated (refuted)."],
 "C25": ["proved", "The header is not reset (refuted)."],
 "C26": ["partial", "Shown for drawings without Section entities, without classes named like a marker (up to R13) and without a marker among the pairs that a caller supplies in extension groups, x-records and the like; each of these three is refuted. CLASSES is written for any version if there are classes."],
 "C27": ["proved", "at every section boundary, for any decoding of the rest of the file"],
 "C28": ["proved", "entities (also in blocks), objects and tables, wherever the known items around them are read without looking past their end"],
 "C29": ["partial", "Conservation and grouping proved for all sequences; the round trip is proved for everything but inserts with attributes from R13 on, where it is refuted (finding)."],
 "C30": ["partial", "A malformed pair is reported in every section other than BLOCKS, ENTITIES and OBJECTS; in ENTITIES (without attributes, inserts or polylines before it) and OBJECTS unless 0/ENDSEC follows it directly; in BLOCKS in the pairs of a block before its first entity. Within an entity of a block it is not reported, but the entities before and after that one are kept (C30_block_entities_kept_partial). The statement itself is false: a malformed last pair of the section loses the entity or object silently, one at the end of a vertex breaks the polyline apart silently, and within a block the pairs after it are applied to the block."],
 "C31": ["partial", "all fields of all nine tables at all versions, except the owner handle (never written, C31_owner_refuted), non-positive layer colours, separator characters above 255 and integers that do not fit their code (C31_wide_integer_refuted)"],
 "C32": ["proved", "All 285 variables, 21 versions, all values. Exceptions, each refuted with a witness: R11 comes back as R12; DIMATFIT from R2000; HALOGAP from R2004 (fractions); XCLIPFRAME in R2004-R2007 (third value); 32-bit values under 16-bit codes. Instants within one second (C50); third components of two-component points are not stored."],
 "C33": ["proved", "all 46 entity shapes (all types, custom readers and writers included) at every version; the 20 listed exceptions are each shown to be real, integers must fit the type of their code (C33_wide_integers_refuted), rotated dimensions vanish before R13"],
 "C34": ["proved", "the 33 object types whose writer is generated (and the light list) at every version; the listed exceptions are each shown to be real, integers must fit the type of their code (C34_wide_integers_refuted), mesh points of GEODATA have z = 0 and face indices are whole numbers"],
 "C35": ["proved", "Every flag accessor of the crate, as data generated from the sources; the two proxy word accessors are the exception (findings)."],
 "C36": ["proved", "Dimension words."],
 "C37": ["partial", "Round trips proved for colours with a kind; index 0, raw values above 257 and layer colours 0 and -32768 are refuted (findings)."],
 "C38": ["proved", "all versions; R11 is read as R12"],
 "C39": ["proved", "For bitmap header sizes and offsets below 2^31; above, the reader panics (finding)."],
 "C40": ["partial", "For every drawing without blocks, the entities a DXB file can hold come back in order with type, layer, colour and (single-precision) numbers, everything else as in a new entity; numbers that are singles come back exactly. Missing, each refuted by a theorem: drawings that also have blocks, heights of flat entities, bulges, layer names beyond Latin-1."],
 "C41": ["proved", "Recombination of point lists by position."],
 "C42": ["proved", "Matrices round trip; SpatialFilter's own matrices do not (finding)."],
 "C43": ["partial", "Classes come back in both layouts for every version, with the fields the version stores. Refuted in one corner: up to R13 a class whose record name is ENDSEC ends the section (C43_endsec_refuted)."],
 "C44": ["partial", "Blocks come back with their entities for every version. Lost: extended data (C44_extended_data_refuted), handles of the block's entities. Extension groups holding a 0 pair make the file unreadable (C44_extension_group_refuted)."],
 "C45": ["proved", "all dictionaries with distinct keys, entries and written order; reading of all sequences of pairs without groups; is_hard_owner is not part of the claim and is lost (C45_hard_owner_refuted)"],
 "C46": ["partial", "false for light lists, id buffers, section managers, multi-line styles, x-records, data table values, section settings, cell styles, matrices and dates (the refuted theorems); proved for the lists that survive and for everything else of those objects"],
 "C47": ["proved", "The get, set and add methods generated for <Pointer> elements, for every declared kind and type."],
 "C48": ["partial", "Drawings come back from text and binary files, up to the listed exceptions; values must be storable in the format (text: twelve decimals, safe backslashes; binary: ASCII). Refuted corners: default header angles in text files, handles of vertices and attributes, inserts with attributes from R13 on, multi-line styles doubled, 999 pairs in x-records."],
 "C49": ["partial", "No OBJECTS before R13, no THUMBNAILIMAGE and no extended data before R2000, no extension groups before R14, no entity types before their version; no subclass markers in entities before R13 apart from seven entity types. Refuted: arcs (and the others) have subclass markers, tables have them, and CLASSES is written for R10 to R12."],
 "C50": ["partial", "Round trip to within one second proved; 'never fails' and exactness are refuted (findings)."],
 "C51": ["proved", "from C33 for the light-weight polyline; zeros may change sign, identifiers are stored from R2013 on"],
 "C52": ["proved", ""],
 "C53": ["partial", "Every sequence of bytes without blocks and section settings is loaded in finitely many steps, and so is every block not interrupted by the end of its section; every DXB file is read to an end; files with an open block loop forever (refuted)."],
 "C54": ["partial", "No panic on any sequence of bytes free of the listed constructs (dates, out-of-range numbers, data tables, thumbnails, ...) nor on any DXB file; for six of the constructs a panicking file is given (refuted)."],
 "C55": ["partial", "Shown for all pairs but those supplied as such by the caller (extension groups, x-records, ...) and the hours of a SunStudy, which are 16-bit integers under the boolean code 290 (refuted)."],
 "C56": ["partial", "For all drawings whose pairs both formats can store; refuted for the angles of a new drawing of 2007, which text files round."],
 "C57": ["partial", "For all files of bytes below 128 without backslashes; refuted with a backslash at the end of a name."],
 "C58": ["partial", "Shown for DXB files cut anywhere after the first line. An accepted text or binary file has its last section closed or an end mark; that a section is missing is not noticed (refuted)."],
 "C59": ["partial", "Shown for files whose header, if any, comes first and whose handles in later sections are below the next handle of the loaded drawing; without that it is refuted. Also shown for drawings that are made by adding and removing, saved as text or binary and loaded again, when nothing is named HEADER, no object lists handles of others with code 5 and no supplied pair has a code of a handle."],
 "C60": ["proved", "The naive claim without the exception is refuted by C60_any_file_refuted."],
 "C61": ["partial", "Shown for the types and codes listed in DocSpec.v and RestSpec.v, 39 entities, 21 objects and 9 tables, for layouts behind their marker and for attributes before and behind theirs; the other types and codes of the reference are not listed. Where the library departs from the reference is refuted."],
 "C62": ["partial", "Shown for the 268 rows listed in DocSpec.v. Flags that are neither 0 nor 1 and the zero suppression are refuted."],
 "C63": ["proved", "Text files with the mark, binary files of well-formed pairs, saved drawings. Without the mark it is refuted."],
 "C64": ["proved", "Pairs, binary bytes, and text bytes with ASCII strings. That the order of TABLES and ENTITIES does not matter for layers is refuted."],
 "C65": ["proved", "All types; those that depend on the order are excepted in the statement and each is shown to (refuted theorems). Objects with a reader of their own are outside of the claim, table items are compared as read, not in a whole file."],
 "C66": ["proved", "All types of entities and table items and all objects without a reader of their own; whole files for entities."],
 "C67": ["proved", "Exact list of exceptions. Items one by one: x-data after attributes and vertices, and whole files, are not covered."],
 "C68": ["proved", "For all bytes and all histories of additions and normalizations. Refuted for removal, for styles of block members and for the blocks inserts name (findings)."],
 "C69": ["proved", "the exact list of declared handles for every drawing; distinct for drawings made by adding and removing; the exceptions are refuted by witnesses"],
 "C70": ["partial", "Shown for thirteen types of entities, seven of objects and for line types; for binary data (310) of every type of entity, proxy objects and, reading only, macros and the identifiers of proxy objects. Not shown: hatches, tables and other types the model does not have; the exceptions are refuted."],
 "C71": ["partial", "Shown for the five kinds the library has. The sixth kind of the reference, between two lines, is refuted; extension data groups and extended data among the pairs are left out."]
}
