(** C67: saving what was loaded gives what was saved. *)
From Verif Require Import Base TextProofs CodePairModel VersionModel ExtDataModel FileModel SpecModel SpecSpec SpecCheck SpecProofs SpecCoverProofs SpecWitness EntityData ObjectData TableData SectionData EntityProps ObjectProps TableProps StableSpec StableProofs PartsProofs.
Open Scope string_scope.
Open Scope list_scope.
Open Scope Z_scope.
Set Default Goal Selector "!".

(** * Items that are not written again as they were *)
Definition valueb (a b : value) : bool :=
  match a, b with
  | VDouble d, VDouble e => (d =? e)%N || ((d mod 2 ^ 63 =? 0)%N && (e mod 2 ^ 63 =? 0)%N)
  | VStr x, VStr y | VBin x, VBin y => seqb x y
  | VShort x, VShort y | VInt x, VInt y | VLong x, VLong y | VBool x, VBool y => Z.eqb x y
  | _, _ => false
  end.
Fixpoint pairsb (ps qs : list pair) : bool :=
  match ps, qs with
  | [], [] => true
  | p :: ps', q :: qs' => if Z.eqb (p_code p) (p_code q) then if valueb (p_value p) (p_value q) then pairsb ps' qs' else false else false
  | _, _ => false
  end.
Lemma valueb_complete a b : same_value a b -> valueb a b = true.
Proof.
  intros H. destruct H as [x|d e D E].
  - destruct x; cbn [valueb]; try apply Z.eqb_refl; try apply seqb_refl. rewrite N.eqb_refl. reflexivity.
  - cbn [valueb]. rewrite D, E. apply orb_true_r.
Qed.
Lemma pairsb_complete ps qs : Forall2 same_pair ps qs -> pairsb ps qs = true.
Proof. induction 1 as [|p q ps qs [C V] _ IH]; [reflexivity|]. cbn [pairsb]. rewrite C, Z.eqb_refl, (valueb_complete _ _ V). exact IH. Qed.
(** The item is well typed and is written otherwise when it is written again. *)
Definition differs_again (t : itype) (v : version) (item : store) : bool :=
  if typedb t item then
    match write_item (it_spec t) v true item with
    | Err _ => true
    | Ok ps =>
        match read_item (it_spec t) (map Ok ps ++ [Ok stop]) with
        | Ok (Some st, _) => match write_item (it_spec t) v true st with Ok qs => negb (pairsb ps qs) | Err _ => true end
        | _ => true
        end
    end
  else false.
Lemma differs_sound t v item : differs_again t v item = true -> ~ written_again t v.
Proof.
  unfold differs_again. intros H W. destruct (typedb t item) eqn:T; [|discriminate H]. destruct (W true item (typedb_sound _ _ T)) as (ps & st & qs & E & R & Q & F). rewrite E, R, Q, (pairsb_complete _ _ F) in H; [discriminate H|]. exists stop, []. split; reflexivity.
Qed.
(** The fields an example sets: all but extension data. *)
Definition typical (t : itype) : list string := map f_name (filter (fun f => match f_kind f with KList KExt => false | _ => true end) (it_fields t)).
(** Items to try: sample values in the given fields, or in one of them, or in all. *)
Definition shown_again (lost : list string) (t : itype) (v : version) : bool :=
  if differs_again t v (sampled t lost) then true else if existsb (fun s => differs_again t v (sampled t [s])) lost then true else differs_again t v (sampled t (typical t)).
Lemma shown_sound lost t v : shown_again lost t v = true -> ~ written_again t v.
Proof.
  unfold shown_again. intros H. destruct (differs_again t v (sampled t lost)) eqn:A; [exact (differs_sound _ _ _ A)|]. destruct (existsb _ lost) eqn:B; [|exact (differs_sound _ _ _ H)]. apply existsb_exists in B as (s & _ & B). exact (differs_sound _ _ _ B).
Qed.

(** * Entities *)
(** Entity types that are not, with the first and the last version concerned. *)
Definition entity_changes : list (string * version * version) :=
  [("ProxyEntity", R14, R2018); ("AttributeDefinition", R2007, R2007); ("Attribute", R2007, R2007); ("MLine", R13, R2018); ("MText", R13, R2018);
   ("OleFrame", R2000, R2018); ("Ole2Frame", R2000, R2018); ("Section", R2007, R2018); ("DgnUnderlay", R2007, R2018); ("DwfUnderlay", R2007, R2018);
   ("PdfUnderlay", R2007, R2018); ("Wipeout", R2000, R2018)].
Definition among (l : list (string * version * version)) (t : itype) (v : version) : bool :=
  existsb (fun '(n, lo, hi) => String.eqb (sp_name (it_spec t)) n && version_leb lo v && version_leb v hi) l.
Definition checked_again (l : list (string * version * version)) (lost : itype -> version -> list string) (t : itype) (v : version) : bool :=
  if supported (it_spec t) v then if among l t v then shown_again (lost t v) t v else again t (lost t v) v else true.
Lemma entities_again : every entities (checked_again entity_changes entity_lost) = true.
Proof. vm_compute. reflexivity. Qed.
(** Every entity type, for every version that supports it: the pairs of an entity that was saved and loaded are those that were saved. The
    exceptions are those of [entity_changes], each of which is real (C67_entities_refuted), and rotated dimensions before R13, which are
    dropped (C33_rotated_dimension_refuted). The pairs of x-data that come after the attributes or vertices of an entity are not part of its own
    pairs here. *)
Theorem C67_entities_written_again : forall t v, In t entities -> supported (it_spec t) v = true -> dropped t v = false -> among entity_changes t v = false -> written_again t v.
Proof.
  intros t v Ht Hs Hd Ha. pose proof (every_sound _ _ entities_again t v Ht) as C. unfold checked_again in C. rewrite Hs, Ha in C. exact (again_sound _ _ _ C (entities_survive t v Ht Hs Hd)).
Qed.
Print Assumptions C67_entities_written_again.
(** 34 of the 46 types are written again as they were for every version, and the spline of C33 is such an item. *)
Example C67_entities_case : length (filter (fun t => forallb (fun v => negb (among entity_changes t v)) all_versions) entities) = 34%nat /\ In ent_spline entities /\
  well_typed ent_spline spline_item /\ differs_again ent_spline R2000 spline_item = false.
Proof. split; [vm_compute; reflexivity|]. split; [cbn; tauto|]. split; [apply typedb_sound; vm_compute; reflexivity|]. vm_compute. reflexivity. Qed.
Theorem C67_entities_refuted : forall t v, In t entities -> supported (it_spec t) v = true -> among entity_changes t v = true -> ~ written_again t v.
Proof.
  intros t v Ht Hs Ha. pose proof (every_sound _ _ entities_again t v Ht) as C. unfold checked_again in C. rewrite Hs, Ha in C. exact (shown_sound _ _ _ C).
Qed.
Print Assumptions C67_entities_refuted.
Example C67_entities_refuted_case : In ent_pdf_underlay entities /\ supported (it_spec ent_pdf_underlay) R2010 = true /\ among entity_changes ent_pdf_underlay R2010 = true /\
  differs_again ent_pdf_underlay R2010 (sampled ent_pdf_underlay ["points"]) = true.
Proof. split; [cbn; tauto|]. vm_compute. repeat split. Qed.

(** * Objects *)
Definition object_changes : list (string * version * version) :=
  [("AcadProxyObject", R2000, R2018); ("NavisWorksModelDefinition", R2018, R2018); ("DimensionAssoc", R2004, R2018); ("Field", R2004, R2018); ("IdBuffer", R14, R2018);
   ("LightList", R2007, R2018); ("Material", R2004, R2018); ("MLineStyle", Version_1_0, R2018); ("RapidRTRenderEnvironment", R2018, R2018); ("RapidRenderSettings", R2018, R2018);
   ("MentalRayRenderSettings", R2007, R2018); ("RenderEnvironment", R2007, R2018); ("RenderGlobal", R2007, R2018); ("SectionManager", R2007, R2018); ("VbaProject", R2000, R2018)].
Lemma objects_again : every objects (checked_again object_changes object_lost) = true.
Proof. vm_compute. reflexivity. Qed.
Theorem C67_objects_written_again : forall t v, In t objects -> supported (it_spec t) v = true -> among object_changes t v = false -> written_again t v.
Proof.
  intros t v Ht Hs Ha. pose proof (every_sound _ _ objects_again t v Ht) as C. unfold checked_again in C. rewrite Hs, Ha in C. exact (again_sound _ _ _ C (objects_survive t v Ht Hs)).
Qed.
Print Assumptions C67_objects_written_again.
Example C67_objects_case : map (fun t => sp_name (it_spec t)) (filter (fun t => forallb (fun v => negb (among object_changes t v)) all_versions) objects) =
  ["PlaceHolder"; "DictionaryVariable"; "GeoData"; "Group"; "ImageDefinition"; "ImageDefinitionReactor"; "LayerFilter"; "LayerIndex"; "Layout"; "MLeaderStyle"; "ObjectPointer"; "PlotSettings";
   "RasterVariables"; "SortentsTable"; "SpatialIndex"; "UnderlayDefinition"; "VisualStyle"; "WipeoutVariables"] /\
  In obj_group objects /\ let item := sampled obj_group (typical obj_group) in well_typed obj_group item /\ differs_again obj_group R2000 item = false /\
    match write_item (it_spec obj_group) R2000 true item with Ok ps => Nat.leb 6 (length ps) | Err _ => false end = true.
Proof. split; [vm_compute; reflexivity|]. split; [cbn; tauto|]. split; [apply typedb_sound; vm_compute; reflexivity|]. split; vm_compute; reflexivity. Qed.
Theorem C67_objects_refuted : forall t v, In t objects -> supported (it_spec t) v = true -> among object_changes t v = true -> ~ written_again t v.
Proof.
  intros t v Ht Hs Ha. pose proof (every_sound _ _ objects_again t v Ht) as C. unfold checked_again in C. rewrite Hs, Ha in C. exact (shown_sound _ _ _ C).
Qed.
Print Assumptions C67_objects_refuted.
Example C67_objects_refuted_case : In obj_material objects /\ supported (it_spec obj_material) R2010 = true /\ among object_changes obj_material R2010 = true.
Proof. split; [cbn; tauto|]. split; vm_compute; reflexivity. Qed.

(** * Table entries *)
(** With the fields that only the library itself sees. *)
Definition published (t : itype) : itype := mk_itype (it_spec t) (map (fun f => mk_field (f_name f) (f_kind f) true (f_codes f) (f_windows f) (f_comps f)) (it_fields t)).
Definition table_changes : list (string * version * version) := [("ViewPort", R2007, R2018)].
Definition table_again (t : itype) (v : version) : bool :=
  if among table_changes t v then shown_again ["has_own_ucs"] t v
  else if check_item (published t) v true table_lost then if check_item (published t) v false table_lost then again (published t) table_lost v else false else false.
Lemma tables_again : every tables table_again = true.
Proof. vm_compute. reflexivity. Qed.
Lemma published_again t v : written_again (published t) v -> written_again t v.
Proof.
  intros W wh item T. apply W. intros f If. cbn [published it_fields] in If. apply in_map_iff in If as (g & <- & Ig). exact (T g Ig).
Qed.
Theorem C67_table_items_written_again : forall t v, In t tables -> among table_changes t v = false -> written_again t v.
Proof.
  intros t v Ht Ha. pose proof (every_sound _ _ tables_again t v Ht) as C. unfold table_again in C. rewrite Ha in C. destruct (check_item (published t) v true table_lost) eqn:C1; [|discriminate C]. destruct (check_item (published t) v false table_lost) eqn:C2; [|discriminate C].
  apply published_again, (again_sound _ _ _ C), check_item_sound. intros [|]; assumption.
Qed.
Print Assumptions C67_table_items_written_again.
Example C67_table_items_case : In t_dim_style tables /\ among table_changes t_dim_style R2010 = false /\ let item := sampled t_dim_style (typical t_dim_style) in
  well_typed t_dim_style item /\ differs_again t_dim_style R2010 item = false /\ match write_item (it_spec t_dim_style) R2010 true item with Ok ps => Nat.leb 70 (length ps) | Err _ => false end = true.
Proof. split; [cbn; tauto|]. split; [vm_compute; reflexivity|]. split; [apply typedb_sound; vm_compute; reflexivity|]. split; vm_compute; reflexivity. Qed.
(** The UCS of a view port: since R2007 it is written if [has_own_ucs] is set, but that flag is not. It is lost when the drawing is saved a second time. *)
Theorem C67_view_port_ucs_refuted : forall v, version_leb R2007 v = true -> ~ written_again t_view_port v.
Proof.
  intros v Hv. assert (It : In t_view_port tables) by (cbn; tauto). pose proof (every_sound _ _ tables_again _ v It) as C. unfold table_again in C. replace (among table_changes t_view_port v) with true in C; [exact (shown_sound _ _ _ C)|]. destruct v; try discriminate Hv; reflexivity.
Qed.
Print Assumptions C67_view_port_ucs_refuted.
Example C67_view_port_case : let item := sampled t_view_port ["has_own_ucs"; "ucs_elevation"] in well_typed t_view_port item /\ differs_again t_view_port R2010 item = true /\ differs_again t_view_port R2004 item = false.
Proof. split; [apply typedb_sound; vm_compute; reflexivity|]. split; vm_compute; reflexivity. Qed.

(** * Blocks and classes *)
Lemma block_again : forallb (again block_head ["x_data"]) all_versions = true.
Proof. vm_compute. reflexivity. Qed.
(** The pairs of a block before its entities. *)
Theorem C67_block_heads_written_again : forall v, written_again block_head v.
Proof. intros v. apply (again_sound _ ["x_data"]); [exact (proj1 (forallb_forall _ _) block_again v (all_versions_all v))|apply blocks_survive]. Qed.
Print Assumptions C67_block_heads_written_again.
Lemma class_again : forallb (fun v => again (class_type v) [] v) all_versions = true.
Proof. vm_compute. reflexivity. Qed.
Theorem C67_classes_written_again : forall v, written_again (class_type v) v.
Proof. intros v. apply (again_sound _ []); [exact (proj1 (forallb_forall _ _) class_again v (all_versions_all v))|apply classes_survive]. Qed.
Print Assumptions C67_classes_written_again.
Example C67_parts_case : let b := sampled block_head (typical block_head) in let c := sampled (class_type R2000) (typical (class_type R2000)) in
  well_typed block_head b /\ differs_again block_head R2000 b = false /\ well_typed (class_type R2000) c /\ differs_again (class_type R2000) R2000 c = false.
Proof. split; [apply typedb_sound; vm_compute; reflexivity|]. split; [vm_compute; reflexivity|]. split; [apply typedb_sound; vm_compute; reflexivity|]. vm_compute. reflexivity. Qed.
