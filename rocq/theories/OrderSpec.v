(** The order of the pairs of an item. *)
From Verif Require Import Base TextModel CodePairModel.
Open Scope string_scope.
Open Scope list_scope.
Open Scope Z_scope.

(** Pairs with the same code come in the same order; pairs with different codes may come in any order. *)
Definition same_per_code (ps qs : list pair) : Prop := forall c, filter (fun p => p_code p =? c) ps = filter (fun p => p_code p =? c) qs.
(** No pair ends the item or begins a group of pairs (102 and 1001). *)
Definition ungrouped (ps : list pair) : Prop := Forall (fun p => p_code p <> 0 /\ p_code p <> 102 /\ p_code p <> 1001) ps.
(** Types in which a code means something else after another one: subclass markers, repeated groups of codes. *)
Definition ordered_entities : list string := ["ATTRIB"; "ATTDEF"; "DIMENSION"; "LWPOLYLINE"; "MTEXT"].
Definition ordered_objects : list string := ["LAYOUT"; "MATERIAL"; "MLINESTYLE"; "SORTENTSTABLE"].
(** Fields that two codes share. *)
Definition shared_fields (ty : string) : list string :=
  if String.eqb ty "DIMSTYLE" then ["first_arrow_block_name"; "second_arrow_block_name"; "suppress_first_dimension_extension_line"; "suppress_second_dimension_extension_line"; "dimension_text_and_arrow_placement"]
  else if String.eqb ty "VPORT" then ["view_height"] else [].

(** The codes that entities, objects and table items have a meaning for (spec/EntitiesSpec.xml, ObjectsSpec.xml and TableSpec.xml); all others they pass over. *)
Definition entity_common : list Z := [5; 6; 8; 38; 48; 60; 62; 67; 92; 102; 284; 310; 330; 347; 370; 390; 420; 430; 440; 1001].
Definition object_common : list Z := [5; 102; 330; 1001].
Definition table_common : list Z := [2; 5; 102; 330; 1001].
(** By the type string of the entity. *)
Definition entity_codes : list (string * list Z) :=
  [("3DLINE", [10; 11; 20; 21; 30; 31; 39; 210; 220; 230]);
   ("3DFACE", [10; 11; 12; 13; 20; 21; 22; 23; 30; 31; 32; 33; 70]);
   ("3DSOLID", [1; 3; 70; 350]);
   ("ACAD_PROXY_ENTITY", [70; 90; 91; 93; 94; 95; 340; 350; 360]);
   ("ARC", [10; 20; 30; 39; 40; 50; 51; 210; 220; 230]);
   ("ARCALIGNEDTEXT", [1; 2; 3; 7; 10; 20; 30; 40; 41; 42; 43; 44; 45; 46; 50; 51; 70; 71; 72; 73; 74; 75; 76; 77; 78; 79; 90; 210; 220; 230; 280]);
   ("ATTDEF", [1; 2; 3; 7; 10; 11; 20; 21; 30; 31; 39; 40; 41; 50; 51; 70; 71; 72; 73; 74; 100; 210; 220; 230; 280; 340]);
   ("ATTRIB", [1; 2; 7; 10; 11; 20; 21; 30; 31; 39; 40; 41; 50; 51; 70; 71; 72; 73; 74; 100; 210; 220; 230; 280; 340]);
   ("BODY", [1; 3; 70]);
   ("CIRCLE", [10; 20; 30; 39; 40; 210; 220; 230]);
   ("ELLIPSE", [10; 11; 20; 21; 30; 31; 40; 41; 42; 210; 220; 230]);
   ("HELIX", [10; 11; 12; 20; 21; 22; 30; 31; 32; 40; 41; 42; 90; 91; 280; 290]);
   ("IMAGE", [10; 11; 12; 13; 14; 20; 21; 22; 23; 24; 30; 31; 32; 70; 71; 90; 91; 280; 281; 282; 283; 290; 340; 360]);
   ("INSERT", [2; 10; 20; 30; 41; 42; 43; 44; 45; 50; 66; 70; 71; 210; 220; 230]);
   ("LEADER", [3; 10; 20; 30; 40; 41; 71; 72; 73; 74; 75; 76; 77; 210; 211; 212; 213; 220; 221; 222; 223; 230; 231; 232; 233; 340]);
   ("LIGHT", [1; 10; 11; 20; 21; 30; 31; 40; 41; 42; 50; 51; 70; 72; 73; 90; 91; 280; 290; 291; 292; 293]);
   ("LINE", [10; 11; 20; 21; 30; 31; 39; 210; 220; 230]);
   ("LWPOLYLINE", [10; 20; 39; 40; 41; 42; 43; 70; 91; 210; 220; 230]);
   ("MLINE", [2; 10; 11; 12; 13; 20; 21; 22; 23; 30; 31; 32; 33; 40; 41; 42; 70; 71; 72; 73; 74; 75; 210; 220; 230; 340]);
   ("MTEXT", [1; 3; 7; 10; 11; 20; 21; 30; 31; 40; 41; 42; 43; 44; 45; 49; 50; 63; 71; 72; 73; 75; 76; 78; 79; 90; 210; 220; 230; 441]);
   ("OLEFRAME", [70; 90]);
   ("OLE2FRAME", [3; 10; 11; 20; 21; 30; 31; 70; 71; 72; 90]);
   ("POINT", [10; 20; 30; 39; 50; 210; 220; 230]);
   ("POLYLINE", [10; 20; 30; 39; 40; 41; 66; 70; 71; 72; 73; 74; 75; 210; 220; 230]);
   ("RAY", [10; 11; 20; 21; 30; 31]);
   ("REGION", [1; 3; 70]);
   ("RTEXT", [1; 7; 10; 20; 30; 40; 50; 70; 210; 220; 230]);
   ("SECTION", [1; 10; 11; 12; 20; 21; 22; 30; 31; 32; 40; 41; 63; 70; 90; 91; 93; 360; 411]);
   ("SEQEND", []);
   ("SHAPE", [2; 10; 20; 30; 39; 40; 41; 50; 51; 210; 220; 230]);
   ("SOLID", [10; 11; 12; 13; 20; 21; 22; 23; 30; 31; 32; 33; 39; 210; 220; 230]);
   ("SPLINE", [10; 11; 12; 13; 20; 21; 22; 23; 30; 31; 32; 33; 40; 41; 42; 43; 44; 70; 71; 72; 73; 74; 210; 220; 230]);
   ("TEXT", [1; 7; 10; 11; 20; 21; 30; 31; 39; 40; 41; 50; 51; 71; 72; 73; 210; 220; 230]);
   ("TOLERANCE", [1; 3; 10; 11; 20; 21; 30; 31; 210; 220; 230]);
   ("TRACE", [10; 11; 12; 13; 20; 21; 22; 23; 30; 31; 32; 33; 39; 210; 220; 230]);
   ("DGNUNDERLAY", [10; 11; 20; 21; 30; 41; 42; 43; 50; 210; 220; 230; 280; 281; 282; 340]);
   ("DWFUNDERLAY", [10; 11; 20; 21; 30; 41; 42; 43; 50; 210; 220; 230; 280; 281; 282; 340]);
   ("PDFUNDERLAY", [10; 11; 20; 21; 30; 41; 42; 43; 50; 210; 220; 230; 280; 281; 282; 340]);
   ("VERTEX", [10; 20; 30; 40; 41; 42; 50; 70; 71; 72; 73; 74; 91]);
   ("WIPEOUT", [10; 11; 12; 13; 14; 20; 21; 22; 23; 30; 31; 32; 70; 71; 90; 91; 280; 281; 282; 283; 290; 340; 360]);
   ("XLINE", [10; 11; 20; 21; 30; 31]);
   ("DIMENSION", [1; 2; 3; 10; 11; 12; 13; 14; 15; 16; 20; 21; 22; 23; 24; 25; 26; 30; 31; 32; 33; 34; 35; 36; 40; 41; 42; 50; 51; 52; 53; 70; 71; 72; 100; 210; 220; 230; 280])].
(** By the type string of the object; objects with a reader of their own are left out. *)
Definition object_codes : list (string * list Z) :=
  [("ACAD_PROXY_OBJECT", [70; 90; 91; 93; 95; 310; 340; 350; 360]);
   ("ACDBPLACEHOLDER", []);
   ("AcDbNavisworksModelDef", [1; 10; 11; 20; 21; 30; 31; 290]);
   ("DICTIONARYVAR", [1; 280]);
   ("DIMASSOC", [1; 10; 20; 30; 40; 70; 71; 72; 73; 74; 75; 90; 91; 92; 301; 302; 331; 332]);
   ("FIELD", [1; 2; 3; 4; 6; 7; 9; 90; 91; 92; 93; 94; 95; 96; 97; 98; 140; 300; 301; 310; 331; 360]);
   ("GEODATA", [10; 11; 12; 13; 14; 20; 21; 22; 23; 24; 30; 31; 40; 41; 70; 90; 91; 92; 93; 95; 96; 97; 98; 99; 141; 142; 143; 210; 220; 230; 294; 301; 302; 305; 306; 307]);
   ("GROUP", [70; 71; 300; 340]);
   ("IDBUFFER", []);
   ("IMAGEDEF", [1; 10; 11; 12; 20; 90; 280; 281]);
   ("IMAGEDEF_REACTOR", [90]);
   ("LAYER_FILTER", [8]);
   ("LAYER_INDEX", [8; 40; 90; 360]);
   ("LAYOUT", [1; 10; 11; 12; 13; 14; 15; 16; 17; 20; 21; 22; 23; 24; 25; 26; 27; 32; 33; 34; 35; 36; 37; 70; 71; 76; 100; 146; 345; 346]);
   ("LIGHTLIST", [90]);
   ("MATERIAL", [1; 2; 3; 4; 6; 7; 8; 9; 40; 41; 42; 43; 44; 45; 46; 47; 48; 49; 62; 70; 71; 72; 73; 74; 75; 76; 77; 78; 79; 90; 91; 92; 93; 94; 140; 141; 142; 143; 144; 145; 146; 147; 148; 170; 171; 172; 173; 174; 175; 176; 177; 178; 179; 270; 271; 272; 273; 274; 275; 276; 290; 291; 292; 293; 300; 301; 420; 430; 460; 461; 462; 463; 464; 465; 468; 469]);
   ("MLEADERSTYLE", [3; 40; 41; 42; 43; 44; 45; 46; 47; 49; 90; 91; 92; 93; 94; 140; 141; 142; 143; 170; 171; 172; 173; 174; 175; 176; 177; 178; 271; 272; 273; 290; 291; 292; 293; 294; 295; 296; 297; 300; 340; 341; 342; 343]);
   ("MLINESTYLE", [2; 3; 6; 49; 51; 52; 62; 70; 71]);
   ("OBJECT_PTR", []);
   ("PLOTSETTINGS", [1; 2; 4; 6; 7; 40; 41; 42; 43; 44; 45; 46; 47; 48; 49; 70; 72; 73; 74; 75; 76; 77; 78; 140; 141; 142; 143; 147; 148; 149; 333]);
   ("RAPIDRTRENDERENVIRONMENT", [1; 40; 90; 290; 340]);
   ("RAPIDRTRENDERSETTINGS", [1; 40; 70; 90; 290]);
   ("RASTERVARIABLES", [70; 71; 72; 90]);
   ("MENTALRAYRENDERSETTINGS", [1; 40; 70; 90; 290]);
   ("RENDERENVIRONMENT", [1; 40; 90; 280; 290]);
   ("RENDERGLOBAL", [1; 90; 290]);
   ("SECTIONMANAGER", [70; 90]);
   ("SORTENTSTABLE", [100; 331]);
   ("SPATIAL_INDEX", [40]);
   ("UNDERLAYDEFINITION", [1; 2]);
   ("VBA_PROJECT", [310]);
   ("VISUALSTYLE", [2; 40; 41; 42; 43; 44; 62; 63; 64; 65; 66; 67; 70; 71; 72; 73; 74; 75; 76; 77; 78; 79; 90; 91; 92; 93; 170; 171; 173; 174; 175; 290; 291; 421]);
   ("WIPEOUTVARIABLES", [70; 90])].
(** By the type string of the table item. *)
Definition table_codes : list (string * list Z) :=
  [("APPID", []);
   ("BLOCK_RECORD", [70; 280; 281; 310; 340]);
   ("DIMSTYLE", [3; 4; 6; 7; 40; 41; 42; 43; 44; 45; 46; 47; 48; 71; 72; 73; 74; 75; 76; 77; 78; 79; 140; 141; 142; 143; 144; 145; 146; 147; 148; 170; 171; 172; 173; 174; 175; 176; 177; 178; 179; 270; 271; 272; 273; 274; 275; 276; 277; 278; 279; 280; 281; 282; 283; 284; 285; 286; 287; 288; 289; 340; 341; 342; 343; 344; 371; 372]);
   ("LTYPE", [3; 9; 40; 44; 45; 46; 49; 50; 72; 73; 74; 75; 340]);
   ("LAYER", [6; 62; 290; 347; 370; 390]);
   ("STYLE", [3; 4; 40; 41; 42; 50; 71]);
   ("UCS", [10; 11; 12; 13; 20; 21; 22; 23; 30; 31; 32; 33; 71; 79; 146; 346]);
   ("VIEW", [10; 11; 12; 20; 21; 22; 31; 32; 40; 41; 42; 43; 44; 50; 71; 72; 73; 79; 110; 111; 112; 120; 121; 122; 130; 131; 132; 146; 281; 332; 334; 338; 345; 346; 361]);
   ("VPORT", [1; 10; 11; 12; 13; 14; 15; 16; 17; 20; 21; 22; 23; 24; 25; 26; 27; 36; 37; 40; 41; 42; 43; 44; 45; 50; 51; 61; 62; 65; 71; 72; 73; 74; 75; 76; 77; 78; 79; 110; 111; 112; 120; 121; 122; 130; 131; 132; 141; 142; 146; 170; 281; 282; 292; 332; 333; 345; 346; 348; 421; 431])].
Definition has_code (common : list Z) (l : list (string * list Z)) (ty : string) (c : Z) : bool :=
  existsb (Z.eqb c) common || existsb (fun x => if String.eqb (fst x) ty then existsb (Z.eqb c) (snd x) else false) l.
(** The same pairs among those with a meaning. *)
Definition same_known (common : list Z) (l : list (string * list Z)) (ty : string) (ps qs : list pair) : Prop :=
  filter (fun p => has_code common l ty (p_code p)) ps = filter (fun p => has_code common l ty (p_code p)) qs.
