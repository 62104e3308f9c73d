(** Vocabulary for reading files: the input is a sequence of code pairs and reports of malformed ones. Independent of the readers. *)
From Verif Require Import Base CodePairModel VersionModel StreamModel SpecModel SpecSpec.
Open Scope string_scope.
Open Scope list_scope.
Open Scope Z_scope.

(** The pair 0/s that starts an item. *)
Definition item (s : string) : pair := mk_pair 0 (VStr (str s)).
Definition free_of (l : list pair) (it : feed) : Prop := forall p, In p l -> ~ In (Ok p) it.
(** What a pair reader reports is an error of its own; [Panic] and [OutOfFuel] are not among them (C14). *)
Definition reports (it : feed) : Prop := forall e, In (Err e) it -> e <> Panic /\ e <> OutOfFuel.
(** What is left of [it] at some point. *)
Definition left_of (r it : feed) : Prop := exists pre, it = pre ++ r.
(** Decoding what is left as UTF-8 gives reports of its own only, and none of [l]. *)
Definition redecodes (sw : feed -> feed) (l : list pair) (it : feed) : Prop :=
  forall r, left_of r it -> reports (sw r) /\ free_of l (sw r).
Lemma redecodes_id l it : reports it -> free_of l it -> redecodes (fun x => x) l it.
Proof.
  intros H1 H2 r [pre ->]. split; [intros e He; apply H1; apply in_or_app; right; exact He|].
  intros p Hp Hr. apply (H2 p Hp). apply in_or_app. right. exact Hr.
Qed.

(** * Things a reader does not know *)

Definition section_names : list string := ["HEADER"; "CLASSES"; "TABLES"; "BLOCKS"; "ENTITIES"; "OBJECTS"; "THUMBNAILIMAGE"].
Definition table_names : list string := ["APPID"; "BLOCK_RECORD"; "DIMSTYLE"; "LTYPE"; "LAYER"; "STYLE"; "UCS"; "VIEW"; "VPORT"].
Definition entity_names : list string :=
  ["3DFACE"; "3DSOLID"; "ACAD_PROXY_ENTITY"; "ARC"; "ARCALIGNEDTEXT"; "ATTRIB"; "ATTDEF"; "BODY"; "CIRCLE"; "DIMENSION"; "ELLIPSE"; "HELIX"; "IMAGE"; "INSERT";
   "LEADER"; "LIGHT"; "LINE"; "3DLINE"; "LWPOLYLINE"; "MLINE"; "MTEXT"; "OLEFRAME"; "OLE2FRAME"; "POINT"; "POLYLINE"; "RAY"; "REGION"; "RTEXT"; "SECTION";
   "SEQEND"; "SHAPE"; "SOLID"; "SPLINE"; "TEXT"; "TOLERANCE"; "TRACE"; "DGNUNDERLAY"; "DWFUNDERLAY"; "PDFUNDERLAY"; "VERTEX"; "WIPEOUT"; "XLINE"].
Definition object_names : list string :=
  ["ACAD_PROXY_OBJECT"; "AcDbNavisworksModelDef"; "GEODATA"; "MLEADERSTYLE"; "RAPIDRTRENDERENVIRONMENT"; "RAPIDRTRENDERSETTINGS"; "ACDBDICTIONARYWDFLT"; "ACDBPLACEHOLDER"; "DATATABLE"; "DICTIONARY"; "DICTIONARYVAR"; "DIMASSOC"; "FIELD"; "GROUP"; "IDBUFFER";
   "IMAGEDEF"; "IMAGEDEF_REACTOR"; "LAYER_INDEX"; "LAYER_FILTER"; "LAYOUT"; "LIGHTLIST"; "MATERIAL"; "MLINESTYLE"; "OBJECT_PTR"; "PLOTSETTINGS";
   "RASTERVARIABLES"; "RENDERENVIRONMENT"; "RENDERGLOBAL"; "MENTALRAYRENDERSETTINGS"; "SECTIONMANAGER"; "SECTIONSETTINGS"; "SORTENTSTABLE"; "SPATIAL_FILTER";
   "SPATIAL_INDEX"; "SUNSTUDY"; "TABLESTYLE"; "UNDERLAYDEFINITION"; "VBA_PROJECT"; "VISUALSTYLE"; "WIPEOUTVARIABLES"; "XRECORD"].
(** The pairs of [body] that start an item are strings, none of them one of [stops]. *)
Definition no_stop (stops : list string) (body : list pair) : Prop :=
  forall p, In p body -> p_code p = 0 -> exists s, p_value p = VStr s /\ ~ In s (map str stops).
Definition unknown_section (name : rstring) (body : list pair) : Prop :=
  ~ In name (map str section_names) /\ no_stop ["ENDSEC"] body.
Definition section_of (name : rstring) (body : list pair) : list pair :=
  item "SECTION" :: mk_pair 2 (VStr name) :: body ++ [item "ENDSEC"].
Definition unknown_table (name : rstring) (body : list pair) : Prop :=
  ~ In name (map str table_names) /\ no_stop ["ENDTAB"; "TABLE"; "ENDSEC"] body.
Definition table_of (name : rstring) (body : list pair) : list pair :=
  item "TABLE" :: mk_pair 2 (VStr name) :: body ++ [item "ENDTAB"].
(** An item of a type that is not one of [names]: 0/type and any pairs up to the next item. *)
Definition unknown_item (names : list string) (ps : list pair) : Prop :=
  exists s body, ps = mk_pair 0 (VStr s) :: body /\ ~ In s (map str ("ENDSEC" :: "ENDBLK" :: names)) /\ (forall p, In p body -> p_code p <> 0).
(** An item that is read without looking at what follows it, and without taking any of it. *)
Definition delimited {A} (rd : feed -> res (option A * feed)) (ps : list pair) (x : A) : Prop :=
  forall rest, next_item rest -> rd (map Ok ps ++ rest) = Ok (Some x, rest).
(** A sequence of items with unknown ones among them, and without them. *)
Inductive items {A} (rd : feed -> res (option A * feed)) (names : list string) : list pair -> list pair -> Prop :=
| items_nil : items rd names [] []
| items_unknown ps l l' : unknown_item names ps -> items rd names l l' -> items rd names (ps ++ l) l'
| items_known ps x l l' : (exists p r, ps = p :: r /\ p_code p = 0) -> delimited rd ps x -> items rd names l l' -> items rd names (ps ++ l) (ps ++ l').
(** Tables that are read without looking at what follows, with others of an unknown type among them, and without those. *)
Inductive table_items {D} (rd : D -> feed -> res (D * feed)) : list pair -> list pair -> Prop :=
| tables_nil : table_items rd [] []
| tables_unknown name body l l' : unknown_table name body -> table_items rd l l' -> table_items rd (table_of name body ++ l) l'
| tables_known body l l' : (forall d, exists d', forall rest, rd d (map Ok body ++ rest) = Ok (d', rest)) -> table_items rd l l' ->
    table_items rd (item "TABLE" :: body ++ l) (item "TABLE" :: body ++ l').
(** For C58: the end of a file or of a section has been reached, or there is nothing at all. *)
Definition complete (it : feed) : Prop := it = [] \/ In (Ok (item "EOF")) it \/ exists pre, it = pre ++ [Ok (item "ENDSEC")].
