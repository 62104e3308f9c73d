(** C27, C28: what a reader does not know is skipped. *)
From Verif Require Import Base F64Model CodePairModel CodePairProofs ReaderProofs VersionModel StreamModel ExtDataModel SpecModel SpecSpec SpecCheck SpecWitness TableData
  EntityData EntityProps ObjectData ObjectProps SectionData HeaderModel HeaderData CustomModel ThumbnailModel DrawingModel FileModel SuffixProofs LoadSpec LoadProofs LoadProps
  SkipProofs GatherProofs.
Open Scope string_scope.
Open Scope list_scope.
Open Scope Z_scope.
Set Default Goal Selector "!".

(** * C27: unknown sections *)

(** [pre] is the beginning of a file up to the end of a section: with [d] read so far, reading goes on with what follows. [k] is the identity, or, when the
    header in [pre] says that the file is UTF-8, [sw]. *)
Definition boundary (sw : feed -> feed) (env : store) (pre : list pair) (k : feed -> feed) (u : bool) (d : drawing) : Prop :=
  forall rest, reports rest -> redecodes sw [] rest -> load sw env (map Ok pre ++ rest) = load_from sw env u d (k rest) /\ reports (k rest) /\ (u = true \/ redecodes sw [] (k rest)).

Theorem C27_unknown_section : forall sw env pre k u d name body name' body' rest,
  boundary sw env pre k u d ->
  reports rest -> redecodes sw [] (map Ok (section_of name body) ++ rest) ->
  k (map Ok (section_of name body) ++ rest) = map Ok (section_of name' body') ++ k rest -> unknown_section name' body' ->
  load sw env (map Ok pre ++ map Ok (section_of name body) ++ rest) = load sw env (map Ok pre ++ rest).
Proof.
  intros sw env pre k u d name body name' body' rest Hb Hr Hsw Hk Hu.
  assert (Hsw' : redecodes sw [] rest) by (intros r [x ->]; apply Hsw; exists (map Ok (section_of name body) ++ x); rewrite <- app_assoc; reflexivity).
  destruct (Hb (map Ok (section_of name body) ++ rest)) as [H1 _]; [apply reports_app, Hr|exact Hsw|]. destruct (Hb rest Hr Hsw') as [H2 [H3 H4]].
  rewrite H1, H2, Hk. apply unknown_section_skipped; assumption.
Qed.
Print Assumptions C27_unknown_section.
(** In particular, in a file that is not decoded anew. *)
Theorem C27_unknown_section_ascii : forall env pre u d name body rest,
  boundary (fun x => x) env pre (fun x => x) u d -> unknown_section name body -> reports rest ->
  load (fun x => x) env (map Ok pre ++ map Ok (section_of name body) ++ rest) = load (fun x => x) env (map Ok pre ++ rest).
Proof.
  intros env pre u d name body rest Hb Hu Hr. apply (C27_unknown_section _ env pre (fun x => x) u d name body name body rest Hb Hr); [|reflexivity|exact Hu].
  apply redecodes_id; [apply reports_app, Hr|intros p []].
Qed.
Print Assumptions C27_unknown_section_ascii.

(** Boundaries: the beginning of the file, the end of a section of known entities, the end of an unknown section. *)
Lemma start_boundary sw env : boundary sw env [] (fun x => x) false (start env).
Proof. intros rest Hr Hsw. split; [reflexivity|]. split; [exact Hr|right; exact Hsw]. Qed.
Lemma boundary_app sw env pre u d name body d' :
  boundary sw env pre (fun x => x) u d ->
  (forall rest, read_section sw env name u d (map Ok body ++ Ok (item "ENDSEC") :: rest) = Ok (d', u, Ok (item "ENDSEC") :: rest)) ->
  (forall rest, reports rest -> redecodes sw [] rest -> redecodes sw [] (map Ok (section_of name body) ++ rest)) ->
  boundary sw env (pre ++ section_of name body) (fun x => x) u d'.
Proof.
  intros Hb Hs Hd rest Hr Hsw. pose proof (Hd rest Hr Hsw) as Hsw2. rewrite map_app, <- app_assoc.
  destruct (Hb (map Ok (section_of name body) ++ rest)) as [H1 [H2 H3]]; [apply reports_app, Hr|exact Hsw2|].
  split; [|split; [exact Hr|right; exact Hsw]]. rewrite H1, section_feed, load_section.
  - rewrite Hs. cbn [bind fst snd]. rewrite expect_item. reflexivity.
  - right. apply (kept_tail anyE sw _ (map Ok (section_of name body) ++ rest)); [|exact (any_kept _ _ _ Hsw2)]. rewrite section_feed. apply tail_cons, tail_cons, tail_refl.
  - apply any_good, reports_app. intros e [He|He]; [discriminate He|exact (Hr e He)].
Qed.
(** Two lines, with an entity of an unknown type between them. *)
Definition line_with (x : N) : store := item_with ent_line [("common.handle", FHandle 5); ("common.layer", FStr (str "a")); ("p1.x", FF64 x)].
Definition line_pairs (x : N) : list pair := item "LINE" :: match write_item (it_spec ent_line) R2000 true (line_with x) with Ok ps => ps | Err _ => [] end.
Definition some_table : list pair := [item "ACAD_TABLE"; new_str 8 (str "a"); new_str 2 (str "*T1"); new_f64 10 0; new_i16 91 5].
Lemma line_typed x : In x [4607182418800017408; 4611686018427387904]%N -> well_typed ent_line (line_with x).
Proof. intros [<-|[<-|[]]]; apply typedb_sound; vm_compute; reflexivity. Qed.
Lemma line_delimited x : In x [4607182418800017408; 4611686018427387904]%N -> exists st, delimited read_entity (line_pairs x) (ent_line, st).
Proof.
  intros Hx. destruct (C33_entities_survive ent_line R2000 ltac:(cbn; tauto) eq_refl eq_refl true (line_with x) (line_typed x Hx)) as (ps & st & W & R & _).
  exists st. unfold line_pairs. rewrite W. apply (entity_delimited ent_line ps st); [reflexivity..|exact R].
Qed.
Definition two_lines : list pair := line_pairs 4607182418800017408 ++ line_pairs 4611686018427387904.
Definition two_lines_more : list pair := some_table ++ line_pairs 4607182418800017408 ++ some_table ++ some_table ++ line_pairs 4611686018427387904 ++ some_table.
Lemma some_table_unknown : unknown_item entity_names some_table.
Proof.
  exists (str "ACAD_TABLE"), (tl some_table). split; [reflexivity|]. split; [|intros p Hp; cbn in Hp; decompose [or] Hp; subst; cbn; try lia; contradiction].
  intros H. cut (existsb (seqb (str "ACAD_TABLE")) (map str ("ENDSEC" :: "ENDBLK" :: entity_names)) = true); [vm_compute; discriminate|].
  apply existsb_exists. exists (str "ACAD_TABLE"). split; [exact H|apply seqb_eq; reflexivity].
Qed.
Lemma line_head x : exists p r, line_pairs x = p :: r /\ p_code p = 0.
Proof. eexists. eexists. split; reflexivity. Qed.
Lemma two_lines_items : items read_entity entity_names two_lines_more two_lines.
Proof.
  destruct (line_delimited 4607182418800017408 (or_introl eq_refl)) as [s1 H1]. destruct (line_delimited 4611686018427387904 (or_intror (or_introl eq_refl))) as [s2 H2].
  unfold two_lines_more, two_lines. apply items_unknown; [exact some_table_unknown|]. eapply items_known; [apply line_head|exact H1|].
  apply items_unknown; [exact some_table_unknown|]. apply items_unknown; [exact some_table_unknown|].
  rewrite <- (app_nil_r (line_pairs 4611686018427387904)) at 2. eapply items_known; [apply line_head|exact H2|].
  rewrite <- (app_nil_r some_table). apply items_unknown; [exact some_table_unknown|apply items_nil].
Qed.
(** A section of two lines ends at a boundary, and so does the unknown section of the example. *)
Example C27_ex : let pre := section_of (str "ENTITIES") two_lines in
  (forall env, exists d, boundary (fun x => x) env pre (fun x => x) false d) /\
  unknown_section (str "ACDSDATA") [item "ACDSSCHEMA"; new_i32 90 1; new_str 0 (str "ENDTAB"); new_str 1 (str "ENDSEC")].
Proof.
  intros pre. split.
  - intros env. destruct (items_reads _ _ _ _ two_lines_items) as [xs Hx]. exists (fold_left put_entity (gather xs) (start env)).
    apply (boundary_app (fun x => x) env [] false (start env) (str "ENTITIES") two_lines); [apply start_boundary| |].
    + intros rest. unfold read_section. change (seqb (str "ENTITIES") (str "HEADER")) with false. change (seqb (str "ENTITIES") (str "CLASSES")) with false.
        change (seqb (str "ENTITIES") (str "TABLES")) with false. change (seqb (str "ENTITIES") (str "BLOCKS")) with false. change (seqb (str "ENTITIES") (str "ENTITIES")) with true.
        unfold read_entities. rewrite (collect_reads _ _ xs (next_of _ _) (ends_entities "ENDSEC" rest (or_introl eq_refl)) Hx). reflexivity.
    + intros rest Hr _. apply redecodes_id; [apply reports_app, Hr|intros p []].
  - split; [vm_compute; intuition discriminate|]. intros p Hp Hc. cbn in Hp. decompose [or] Hp; subst; cbn in Hc; try discriminate Hc; try contradiction;
      eexists; (split; [reflexivity|]); vm_compute; intuition discriminate.
Qed.
(** The file with the unknown section is read, and has two entities. *)
Example C27_ex_read : let unk := section_of (str "ACDSDATA") [item "ACDSSCHEMA"; new_i32 90 1; new_str 0 (str "ENDTAB"); new_str 1 (str "ENDSEC")] in
  match load (fun x => x) (fun _ => FInt 0) (map Ok (unk ++ section_of (str "ENTITIES") two_lines ++ unk ++ [item "EOF"])) with
  | Ok d => length (dr_entities d) = 2%nat
  | Err _ => False
  end.
Proof. vm_compute. reflexivity. Qed.

(** * C28: unknown entities, objects and tables *)

(** [l] is a sequence of entities with others of unknown types among them, and [l'] is the same without those ([items]). *)
Theorem C28_unknown_entities : forall sw env u d l l' rest, items read_entity entity_names l l' -> reports rest ->
  (u = true \/ (redecodes sw [] (map Ok l ++ Ok (item "ENDSEC") :: rest) /\ redecodes sw [] (map Ok l' ++ Ok (item "ENDSEC") :: rest))) ->
  load_from sw env u d (map Ok (section_of (str "ENTITIES") l) ++ rest) = load_from sw env u d (map Ok (section_of (str "ENTITIES") l') ++ rest).
Proof.
  intros sw env u d l l' rest Hi Hr Hsw. apply section_same; [exact Hr|exact Hsw|].
  assert (R : forall l, read_section sw env (str "ENTITIES") u d (map Ok l ++ Ok (item "ENDSEC") :: rest)
    = let? (d', r) := read_entities d (map Ok l ++ Ok (item "ENDSEC") :: rest) in Ok (d', u, r)) by (intros; reflexivity).
  rewrite !R. rewrite (entities_skip _ l l' d); [reflexivity|apply next_of| |exact Hi]. intros e [He|He]; [discriminate He|exact (Hr e He)].
Qed.
Print Assumptions C28_unknown_entities.
(** The same within a block, whose own fields are [head]. *)
Theorem C28_unknown_entities_in_block : forall d head l l' rest, (forall p, In p head -> p_code p <> 0 /\ p_code p <> 102 /\ p_code p <> 1001) ->
  items read_entity entity_names l l' -> reports rest ->
  read_block d (map Ok head ++ map Ok l ++ Ok (item "ENDBLK") :: rest) = read_block d (map Ok head ++ map Ok l' ++ Ok (item "ENDBLK") :: rest).
Proof. intros d head l l' rest Hh Hi Hr. apply block_skips; assumption. Qed.
Print Assumptions C28_unknown_entities_in_block.
Example C28_entities_ex : items read_entity entity_names two_lines_more two_lines /\ two_lines_more <> two_lines /\
  match load (fun x => x) (fun _ => FInt 0) (map Ok (section_of (str "ENTITIES") two_lines_more)) with Ok d => length (dr_entities d) = 2%nat | Err _ => False end /\
  match load (fun x => x) (fun _ => FInt 0) (map Ok (section_of (str "BLOCKS") (item "BLOCK" :: new_str 2 (str "b") :: two_lines_more ++ [item "ENDBLK"]))) with
  | Ok d => map (fun b => length (bl_entities b)) (dr_blocks d) = [2%nat]
  | Err _ => False
  end.
Proof. split; [exact two_lines_items|]. split; [|split; vm_compute; reflexivity]. intros H. assert (L : length two_lines_more = length two_lines) by (rewrite H; reflexivity). vm_compute in L. discriminate L. Qed.

Theorem C28_unknown_objects : forall sw env u d l l' rest, items read_object object_names l l' -> reports rest ->
  (u = true \/ (redecodes sw [] (map Ok l ++ Ok (item "ENDSEC") :: rest) /\ redecodes sw [] (map Ok l' ++ Ok (item "ENDSEC") :: rest))) ->
  load_from sw env u d (map Ok (section_of (str "OBJECTS") l) ++ rest) = load_from sw env u d (map Ok (section_of (str "OBJECTS") l') ++ rest).
Proof.
  intros sw env u d l l' rest Hi Hr Hsw. apply section_same; [exact Hr|exact Hsw|].
  assert (R : forall l, read_section sw env (str "OBJECTS") u d (map Ok l ++ Ok (item "ENDSEC") :: rest)
    = let? (d', r) := read_objects d (map Ok l ++ Ok (item "ENDSEC") :: rest) in Ok (d', u, r)) by (intros; reflexivity).
  rewrite !R. rewrite (objects_skip _ l l' d); [reflexivity|apply next_of| |exact Hi]. intros e [He|He]; [discriminate He|exact (Hr e He)].
Qed.
Print Assumptions C28_unknown_objects.

Theorem C28_unknown_tables : forall sw env u d l l' rest, table_items read_table l l' -> reports rest ->
  (u = true \/ (redecodes sw [] (map Ok l ++ Ok (item "ENDSEC") :: rest) /\ redecodes sw [] (map Ok l' ++ Ok (item "ENDSEC") :: rest))) ->
  load_from sw env u d (map Ok (section_of (str "TABLES") l) ++ rest) = load_from sw env u d (map Ok (section_of (str "TABLES") l') ++ rest).
Proof.
  intros sw env u d l l' rest Hi Hr Hsw. apply section_same; [exact Hr|exact Hsw|].
  assert (R : forall l, read_section sw env (str "TABLES") u d (map Ok l ++ Ok (item "ENDSEC") :: rest)
    = let? (d', r) := read_tables d (map Ok l ++ Ok (item "ENDSEC") :: rest) in Ok (d', u, r)) by (intros; reflexivity).
  rewrite !R. rewrite (tables_skip (Ok (item "ENDSEC") :: rest)) with (l' := l'); [reflexivity| |exact Hi]. intros e [He|He]; [discriminate He|exact (Hr e He)].
Qed.
Print Assumptions C28_unknown_tables.

(** Objects: a dictionary variable and a placeholder with an object of an unknown type between them. *)
Definition variable_pairs : list pair := item "DICTIONARYVAR" :: match write_item (it_spec obj_dictionary_variable) R2000 true
  (item_with obj_dictionary_variable [("value", FStr (str "7"))]) with Ok ps => ps | Err _ => [] end.
Definition two_variables : list pair := variable_pairs ++ variable_pairs.
Definition two_variables_more : list pair := variable_pairs ++ [item "ACAD_NEW"; new_str 5 (str "FF"); new_str 102 (str "{ACAD_REACTORS")] ++ variable_pairs.
Lemma variable_delimited : exists o, delimited read_object variable_pairs o.
Proof.
  destruct (C34_objects_survive obj_dictionary_variable R2000 ltac:(cbn; tauto) eq_refl true (item_with obj_dictionary_variable [("value", FStr (str "7"))])
    ltac:(apply typedb_sound; vm_compute; reflexivity)) as (ps & st & W & R & _).
  exists (object_of obj_dictionary_variable st). unfold variable_pairs. rewrite W.
  apply (object_delimited (str "DICTIONARYVAR") (fun it => plain_of obj_dictionary_variable (read_item (it_spec obj_dictionary_variable) it))); [reflexivity..|].
  intros rest Hn. unfold plain_of. rewrite (R rest Hn). reflexivity.
Qed.
Example C28_objects_ex : items read_object object_names two_variables_more two_variables /\
  match load (fun x => x) (fun _ => FInt 0) (map Ok (section_of (str "OBJECTS") two_variables_more)) with Ok d => length (dr_objects d) = 2%nat | Err _ => False end.
Proof.
  split; [|vm_compute; reflexivity]. destruct variable_delimited as [o H].
  assert (U : unknown_item object_names [item "ACAD_NEW"; new_str 5 (str "FF"); new_str 102 (str "{ACAD_REACTORS")]).
  { exists (str "ACAD_NEW"), [new_str 5 (str "FF"); new_str 102 (str "{ACAD_REACTORS")]. split; [reflexivity|]. split; [|intros p Hp; cbn in Hp; decompose [or] Hp; subst; cbn; try lia; contradiction].
    intros X. cut (existsb (seqb (str "ACAD_NEW")) (map str ("ENDSEC" :: "ENDBLK" :: object_names)) = true); [vm_compute; discriminate|].
    apply existsb_exists. exists (str "ACAD_NEW"). split; [exact X|apply seqb_eq; reflexivity]. }
  assert (Hh : exists p r, variable_pairs = p :: r /\ p_code p = 0) by (eexists; eexists; split; reflexivity).
  unfold two_variables_more, two_variables. eapply items_known; [exact Hh|exact H|]. apply items_unknown; [exact U|].
  rewrite <- (app_nil_r variable_pairs). eapply items_known; [exact Hh|exact H|apply items_nil].
Qed.
(** Tables: an application table, a table of an unknown type, and the application table again. *)
Definition app_table : list pair := [mk_pair 2 (VStr (str "APPID")); new_i16 70 1; item "APPID"; new_str 2 (str "ACAD"); new_i16 70 0; item "ENDTAB"].
Definition new_table : list pair := table_of (str "VPORT_NEW") [new_i16 70 1; item "VPORT_NEW"; new_str 2 (str "x"); item "APPID"].
Example C28_tables_ex : table_items read_table (item "TABLE" :: app_table ++ new_table ++ item "TABLE" :: app_table) (item "TABLE" :: app_table ++ item "TABLE" :: app_table) /\
  match load (fun x => x) (fun _ => FInt 0) (map Ok (section_of (str "TABLES") (item "TABLE" :: app_table ++ new_table ++ item "TABLE" :: app_table))) with
  | Ok d => length (dr_app_ids d) = 2%nat | Err _ => False end.
Proof.
  split; [|vm_compute; reflexivity].
  assert (K : forall d, exists d', forall rest, read_table d (map Ok app_table ++ rest) = Ok (d', rest)).
  { assert (S : exists st, forall rest, next_item rest -> read_item (it_spec (table_spec TAppId)) (map Ok [new_str 2 (str "ACAD"); new_i16 70 0] ++ rest) = Ok (Some st, rest)).
    { eexists. intros rest [p [r [-> Hp]]]. destruct p as [c w]. cbn in Hp. subst c. unfold read_item. cbn [map app length]. cbn. reflexivity. }
    destruct S as [st S]. intros d. eexists. intros rest.
    apply (table_reads TAppId [new_i16 70 1] ([item "APPID"; new_str 2 (str "ACAD"); new_i16 70 0] ++ []) [titem_of TAppId st] d rest).
    - intros p [<-|[]]. discriminate.
    - apply (reads_tcons TAppId [new_str 2 (str "ACAD"); new_i16 70 0] st [] []); [exact S|apply reads_tnil]. }
  apply tables_known; [exact K|]. unfold new_table. apply tables_unknown.
  - split.
    + intros X. cut (existsb (seqb (str "VPORT_NEW")) (map str table_names) = true); [vm_compute; discriminate|].
      apply existsb_exists. exists (str "VPORT_NEW"). split; [exact X|apply seqb_eq; reflexivity].
    + intros p Hp Hc. cbn in Hp. decompose [or] Hp; subst; cbn in Hc; try discriminate Hc; try contradiction; eexists; (split; [reflexivity|]); vm_compute; intuition discriminate.
  - rewrite <- (app_nil_r app_table) at 1 2. apply tables_known; [exact K|apply tables_nil].
Qed.
