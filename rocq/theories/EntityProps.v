(** C33, C51: the entities. *)
From Verif Require Import Base TextModel CodePairModel VersionModel ExtDataModel SpecModel SpecSpec SpecCheck SpecProofs SpecCoverProofs SpecWitness
  EnumData EntityData.
Open Scope Z_scope.
Local Open Scope string_scope.
Set Default Goal Selector "!".

(** The fields that do not survive: entity type, first and last version concerned, fields. *)
Definition entity_exceptions : list (string * version * version * list string) :=
  [(* the pairs 310, 330 and 92 all go to the proxy's own first field with that code, and never to the common fields *)
   ("ProxyEntity", R14, R2018, ["graphics_data_string"; "entity_data_string"; "object_id_1"; "common.__owner_handle"]);
   ("ProxyEntity", R2000, R2018, ["common.image_byte_count"; "common.preview_image_data"]);
   (* the pairs 310 of the common preview image are read as the frame's data *)
   ("OleFrame", R2000, R2018, ["binary_data_strings"; "common.preview_image_data"]);
   ("Ole2Frame", R2000, R2018, ["binary_data_strings"; "common.preview_image_data"]);
   (* 92 is the section's own vertex count *)
   ("Section", R2007, R2018, ["common.image_byte_count"]);
   (* 48, 420 and 430 are the text's own column width, background colour and its name *)
   ("MText", R13, R2018, ["common.line_type_scale"; "column_count"]);
   ("MText", R2004, R2018, ["common.color_24_bit"; "common.color_name"]);
   (* x-data come after the entities that belong to this one *)
   ("AttributeDefinition", R2000, R2018, ["common.x_data"]);
   ("Attribute", R2000, R2018, ["common.x_data"]);
   ("Polyline", R2000, R2018, ["common.x_data"]);
   ("InsertWithAttributes", R2000, R2018, ["common.x_data"]);
   (* the first 280 is taken for the version, which R2007 does not write *)
   ("AttributeDefinition", R2007, R2007, ["is_locked_in_block"]);
   ("Attribute", R2007, R2007, ["is_locked_in_block"]);
   (* counts are written from the list, not from the field *)
   ("Image", R14, R2018, ["clipping_vertex_count"]);
   ("Leader", R13, R2018, ["vertex_count"]);
   ("Wipeout", R2000, R2018, ["clipping_vertex_count"; "clipping_vertices"]);
   (* written under other codes than they are read from *)
   ("MLine", R13, R2018, ["start_point.x"; "start_point.y"; "start_point.z"; "vertices"; "segment_directions"; "miter_directions"]);
   ("DgnUnderlay", R2007, R2018, ["points"]);
   ("DwfUnderlay", R2007, R2018, ["points"]);
   ("PdfUnderlay", R2007, R2018, ["points"])].
Definition applies (n : string) (v : version) (x : string * version * version * list string) : bool :=
  let '(m, lo, hi, _) := x in String.eqb n m && version_leb lo v && version_leb v hi.
Definition entity_lost (t : itype) (v : version) : list string :=
  flat_map snd (filter (applies (sp_name (it_spec t)) v) entity_exceptions).
(** Before R13 rotated dimensions are written without the pair that tells the reader their type. *)
Definition dropped (t : itype) (v : version) : bool := String.eqb (sp_name (it_spec t)) "RotatedDimension" && negb (version_leb R13 v).

Lemma entities_checked : every entities (checked dropped entity_lost) = true.
Proof. vm_compute. reflexivity. Qed.
Lemma entities_survive t v : In t entities -> supported (it_spec t) v = true -> dropped t v = false -> survives t v (entity_lost t v).
Proof. intros H. exact (checked_sound _ _ t v (every_sound _ _ entities_checked t v H)). Qed.

(** Every entity type, for every version that supports it: all stored fields come back with the same value, all others with the
    default. The exceptions are those of [entity_exceptions], each of which is real (C33_exceptions_refuted), rotated dimensions before R13
    (C33_rotated_dimension_refuted), and integers that do not fit the type of their code (C33_wide_integers_refuted). *)
Theorem C33_entities_survive : forall t v, In t entities -> supported (it_spec t) v = true -> dropped t v = false ->
  survives t v (entity_lost t v).
Proof. exact entities_survive. Qed.
Print Assumptions C33_entities_survive.

(** Most types have no exception at all. *)
Definition flawless (t : itype) : bool := negb (existsb (fun x => String.eqb (fst (fst (fst x))) (sp_name (it_spec t))) entity_exceptions).
Theorem C33_flawless_entities : forall t v, In t entities -> flawless t = true -> supported (it_spec t) v = true -> dropped t v = false ->
  survives t v [].
Proof.
  intros t v H Hf Hs Hd. pose proof (entities_survive t v H Hs Hd) as S. replace (entity_lost t v) with ([] : list string) in S; [exact S|].
  unfold entity_lost. unfold flawless in Hf. apply negb_true_iff in Hf.
  assert (E : filter (applies (sp_name (it_spec t)) v) entity_exceptions = []).
  { induction entity_exceptions as [|[[[m lo] hi] l] r IH]; [reflexivity|]. cbn [existsb fst] in Hf. apply orb_false_iff in Hf. destruct Hf as [H1 H2].
    cbn [filter applies]. rewrite String.eqb_sym, H1. exact (IH H2). }
  rewrite E. reflexivity.
Qed.
Print Assumptions C33_flawless_entities.
Example C33_flawless_case : map (fun t => sp_name (it_spec t)) (filter flawless entities) =
  ["Face3D"; "Solid3D"; "Arc"; "ArcAlignedText"; "Body"; "Circle"; "RotatedDimension"; "RadialDimension"; "DiameterDimension";
   "AngularThreePointDimension"; "OrdinateDimension"; "Ellipse"; "Helix"; "Insert"; "Light"; "Line"; "LwPolyline"; "ModelPoint"; "Ray"; "Region";
   "RText"; "Seqend"; "Shape"; "Solid"; "Spline"; "Text"; "Tolerance"; "Trace"; "Vertex"; "XLine"].
Proof. vm_compute. reflexivity. Qed.

(** A spline and a dimension, well typed, with values unlike the defaults. *)
Definition spline_item : store := item_with ent_spline
  [("common.handle", FHandle 66); ("common.layer", FStr (str "curves")); ("common.color", FInt 5); ("degree_of_curve", FInt 3);
   ("knot_values", FList [FF64 0; FF64 4607182418800017408; FF64 4611686018427387904]);
   ("control_points", FList [FList [FF64 0; FF64 4607182418800017408; FF64 4611686018427387904]; FList [FF64 4611686018427387904; FF64 0; FF64 0]]);
   ("common.x_data", FList [FXd (mk_xdata (str "APP") [])])].
Example C33_spline_case : In ent_spline entities /\ well_typed ent_spline spline_item /\
  match write_item (it_spec ent_spline) R2000 true spline_item with
  | Ok ps => Nat.leb 30 (length ps) &&
      match read_item (it_spec ent_spline) (map Ok ps ++ [Ok stop]) with
      | Ok (Some st, _) => sameb (st "control_points") (spline_item "control_points") && sameb (st "common.color") (FInt 5)
      | _ => false
      end
  | Err _ => false
  end = true.
Proof. split; [cbn; tauto|]. split; [apply typedb_sound; vm_compute; reflexivity|]. vm_compute. reflexivity. Qed.
(** The number of entity types and of fields covered. *)
Example C33_sizes : (length entities, fold_right Nat.add 0%nat (map (fun t => length (filter f_public (it_fields t))) entities)) = (46, 1669)%nat.
Proof. vm_compute. reflexivity. Qed.

(** Every exception is real: for each version concerned, some well-typed entity comes back with another value in that field. *)
Lemma exceptions_lost : every entities (shown_lost entity_lost) = true.
Proof. vm_compute. reflexivity. Qed.
Theorem C33_exceptions_refuted : forall t v s, In t entities -> supported (it_spec t) v = true -> In s (entity_lost t v) -> field_lost t v s.
Proof. intros t v s Ht. exact (shown_lost_sound _ t v s (every_sound _ _ exceptions_lost t v Ht)). Qed.
Print Assumptions C33_exceptions_refuted.
Example C33_exceptions_case : In "points" (entity_lost ent_pdf_underlay R2010) /\ In "is_locked_in_block" (entity_lost ent_attribute R2007).
Proof. split; vm_compute; tauto. Qed.

(** A rotated dimension written for a version before R13 is not there when the pairs are read. *)
Definition any_rotated : store := item_with ent_rotated_dimension [("dimension_base.text", FStr (str "len")); ("rotation_angle", FF64 4611686018427387904)].
Lemma rotated_vanishes : forallb (fun v => version_leb R13 v || vanishes ent_rotated_dimension v any_rotated) all_versions = true.
Proof. vm_compute. reflexivity. Qed.
Theorem C33_rotated_dimension_refuted : forall v, version_leb R13 v = false -> well_typed ent_rotated_dimension any_rotated /\ exists ps r,
  write_item (it_spec ent_rotated_dimension) v true any_rotated = Ok ps /\
  read_item (it_spec ent_rotated_dimension) (map Ok ps ++ [Ok stop]) = Ok (None, r).
Proof.
  intros v Hv. apply vanishes_sound. pose proof (proj1 (forallb_forall _ _) rotated_vanishes v (all_versions_all v)) as H. cbn beta in H.
  rewrite Hv in H. exact H.
Qed.
Print Assumptions C33_rotated_dimension_refuted.

(** Integer fields wider than their code come back changed when they do not fit. *)
Lemma wide_cuts : forallb (fun t => wide_cut t (latest t)) entities = true.
Proof. vm_compute. reflexivity. Qed.
Theorem C33_wide_integers_refuted : forall t f, In t entities -> In f (it_fields t) -> wide f = true ->
  storedb (latest t) true (item_with t [(f_name f, FInt 98309)]) f = true -> field_cut t (latest t) (f_name f).
Proof. exact (wide_cuts_sound entities wide_cuts). Qed.
Print Assumptions C33_wide_integers_refuted.
Example C33_wide_case : existsb (fun f => wide f && String.eqb (f_name f) "flags" && storedb (latest ent_lw_polyline) true (item_with ent_lw_polyline [(f_name f, FInt 98309)]) f)
  (it_fields ent_lw_polyline) = true.
Proof. vm_compute. reflexivity. Qed.

(** * C51: light-weight polylines *)

(** src/entity.rs:121-129, with doubles as their bits. *)
Record lw_vertex : Type := mk_lwv { lw_x : N; lw_y : N; lw_id : Z; lw_start : N; lw_end : N; lw_bulge : N }.
Definition double (d : N) : Prop := (d < 2 ^ 64)%N.
Definition lw_valid (p : lw_vertex) : Prop :=
  double (lw_x p) /\ double (lw_y p) /\ double (lw_start p) /\ double (lw_end p) /\ double (lw_bulge p) /\ - 2 ^ 31 <= lw_id p < 2 ^ 31.
(** The vertex as a field value; the components in the order the script numbers them. *)
Definition lw_val (p : lw_vertex) : fval :=
  FList [FF64 (lw_x p); FF64 (lw_y p); FF64 (lw_start p); FF64 (lw_end p); FF64 (lw_bulge p); FInt (lw_id p)].
(** The same double, except for the sign of a zero. *)
Definition same_double (a b : N) : Prop := a = b \/ (a mod 2 ^ 63 = 0 /\ b mod 2 ^ 63 = 0)%N.
Definition same_vertex (v : version) (p q : lw_vertex) : Prop :=
  same_double (lw_x q) (lw_x p) /\ same_double (lw_y q) (lw_y p) /\ same_double (lw_start q) (lw_start p) /\ same_double (lw_end q) (lw_end p) /\
  same_double (lw_bulge q) (lw_bulge p) /\ lw_id q = (if version_leb R2013 v then lw_id p else 0).

Lemma same_f64 x d : same x (FF64 d) -> exists e, x = FF64 e /\ same_double e d.
Proof.
  intros H. inversion H as [y E1 E2|a b H1 H2 E1 E2|]; subst.
  - exists d. split; [reflexivity|left; reflexivity].
  - exists a. split; [reflexivity|right; split; assumption].
Qed.
Lemma same_int x z : same x (FInt z) -> x = FInt z.
Proof. intros H. inversion H; reflexivity. Qed.
Lemma same_lists x l : same x (FList l) -> exists m, x = FList m /\ Forall2 same m l.
Proof.
  intros H. inversion H as [y E1 E2|a b H1 H2 E1 E2|m l' H1 E1 E2]; subst.
  - exists l. split; [reflexivity|]. clear. induction l; constructor; [apply same_refl|assumption].
  - exists m. split; [reflexivity|exact H1].
Qed.
Lemma lw_same v p : forall x,
  same x (drop_comp v (5%nat, R2013, FInt 0) (lw_val p)) -> exists q, x = lw_val q /\ same_vertex v p q.
Proof.
  intros x H. unfold drop_comp, lw_val in H.
  assert (E : exists id, (if (version_index R2013 <=? version_index v)%N then
       FList [FF64 (lw_x p); FF64 (lw_y p); FF64 (lw_start p); FF64 (lw_end p); FF64 (lw_bulge p); FInt (lw_id p)]
     else FList (firstn 5 [FF64 (lw_x p); FF64 (lw_y p); FF64 (lw_start p); FF64 (lw_end p); FF64 (lw_bulge p); FInt (lw_id p)] ++ FInt 0 ::
       skipn 6 [FF64 (lw_x p); FF64 (lw_y p); FF64 (lw_start p); FF64 (lw_end p); FF64 (lw_bulge p); FInt (lw_id p)])%list) =
     FList [FF64 (lw_x p); FF64 (lw_y p); FF64 (lw_start p); FF64 (lw_end p); FF64 (lw_bulge p); FInt id] /\
     id = if version_leb R2013 v then lw_id p else 0).
  { unfold version_leb. destruct (version_index R2013 <=? version_index v)%N; eexists; split; reflexivity. }
  destruct E as (id & E & Hid). rewrite E in H. clear E. apply same_lists in H. destruct H as (m & -> & H).
  inversion H as [|x1 ? m1 ? A1 B1]; subst. inversion B1 as [|x2 ? m2 ? A2 B2]; subst. inversion B2 as [|x3 ? m3 ? A3 B3]; subst.
  inversion B3 as [|x4 ? m4 ? A4 B4]; subst. inversion B4 as [|x5 ? m5 ? A5 B5]; subst. inversion B5 as [|x6 ? m6 ? A6 B6]; subst. inversion B6; subst.
  apply same_f64 in A1, A2, A3, A4, A5. apply same_int in A6. subst x6.
  destruct A1 as (e1 & -> & S1), A2 as (e2 & -> & S2), A3 as (e3 & -> & S3), A4 as (e4 & -> & S4), A5 as (e5 & -> & S5).
  exists (mk_lwv e1 e2 (if version_leb R2013 v then lw_id p else 0) e3 e4 e5). split; [reflexivity|]. repeat split; assumption.
Qed.

(** A light-weight polyline whose other fields are well typed, with any list of vertices: the same number of vertices comes back, in
    the same order, with the same coordinates, widths and bulges, and with the same identifiers from R2013 on. *)
Lemma lw_roundtrip v wh item vs rest : supported (it_spec ent_lw_polyline) v = true -> well_typed ent_lw_polyline item ->
  item "vertices" = FList (map lw_val vs) -> next_item rest ->
  exists ps st qs, write_item (it_spec ent_lw_polyline) v wh item = Ok ps /\
    read_item (it_spec ent_lw_polyline) (map Ok ps ++ rest) = Ok (Some st, rest) /\
    st "vertices" = FList (map lw_val qs) /\ Forall2 (same_vertex v) vs qs.
Proof.
  intros Hv Ht Hvs Hr.
  assert (Hin : In ent_lw_polyline entities) by (cbn; tauto).
  destruct (C33_flawless_entities ent_lw_polyline v Hin eq_refl Hv eq_refl wh item Ht) as (ps & st & Ew & Er & Hf). specialize (Er rest Hr).
  exists ps, st.
  destruct (find_field ent_lw_polyline "vertices") as [f|] eqn:Ef; [|exfalso; revert Ef; vm_compute; discriminate].
  pose proof (find_some _ _ Ef) as [Hi Hn]. apply String.eqb_eq in Hn.
  assert (Hp : f_public f = true) by (vm_compute in Ef; injection Ef as <-; reflexivity).
  assert (Hc : f_comps f = [(5%nat, R2013, FInt 0)]) by (vm_compute in Ef; injection Ef as <-; reflexivity).
  assert (Hw : f_windows f = [mk_win None None false None]) by (vm_compute in Ef; injection Ef as <-; reflexivity).
  destruct (Hf f Hi Hp (fun x => x)) as [F _]. rewrite Hn in F.
  assert (Hs : stored v wh item f).
  { exists (mk_win None None false None). rewrite Hw. split; [left; reflexivity|]. repeat split. discriminate. }
  specialize (F Hs). unfold kept in F. rewrite Hc, Hvs in F. cbn [fold_left] in F. apply same_lists in F. destruct F as (m & Em & F).
  assert (Hq : exists qs, m = map lw_val qs /\ Forall2 (same_vertex v) vs qs).
  { clear - F. revert m F. induction vs as [|p vs IH]; intros m F.
    - cbn [map] in F. inversion F; subst. exists []. split; [reflexivity|constructor].
    - cbn [map] in F. inversion F as [|x ? m' ? A B]; subst.
      destruct (lw_same v p x A) as (q & -> & Sq). destruct (IH m' B) as (qs & -> & Sqs).
      exists (q :: qs). split; [reflexivity|constructor; assumption]. }
  destruct Hq as (qs & -> & Hq). exists qs. repeat split; assumption.
Qed.
Theorem C51_vertices_survive : forall v wh item vs rest, supported (it_spec ent_lw_polyline) v = true -> well_typed ent_lw_polyline item ->
  item "vertices" = FList (map lw_val vs) -> next_item rest ->
  exists ps st qs, write_item (it_spec ent_lw_polyline) v wh item = Ok ps /\
    read_item (it_spec ent_lw_polyline) (map Ok ps ++ rest) = Ok (Some st, rest) /\
    st "vertices" = FList (map lw_val qs) /\ Forall2 (same_vertex v) vs qs.
Proof. exact lw_roundtrip. Qed.
Print Assumptions C51_vertices_survive.
(** Any list of valid vertices meets the hypotheses. *)
Theorem C51_any_vertices : forall vs, Forall lw_valid vs -> well_typed ent_lw_polyline (item_with ent_lw_polyline [("vertices", FList (map lw_val vs))]).
Proof.
  intros vs H.
  assert (B : well_typed ent_lw_polyline (default_of (it_spec ent_lw_polyline))) by (apply typedb_sound; vm_compute; reflexivity).
  intros f Hf. destruct (String.eqb (f_name f) "vertices") eqn:E.
  - apply String.eqb_eq in E.
    assert (Hk : (f_kind f, f_codes f) = (KList (KRec [KF64; KF64; KF64; KF64; KF64; KInt (-2147483648) 2147483647]), [10])).
    { revert E. cbn in Hf. repeat (destruct Hf as [<-|Hf]; [try (intros X; discriminate X); reflexivity|]). destruct Hf. }
    injection Hk as -> ->. rewrite E. unfold item_with. cbn [assoc_slot String.eqb Ascii.eqb Bool.eqb].
    change (assoc_slot "vertices" [("vertices", FList (map lw_val vs))]) with (Some (FList (map lw_val vs))). split.
    + exists (map lw_val vs). split; [reflexivity|]. apply Forall_map. eapply Forall_impl; [|exact H].
      intros p (H1 & H2 & H3 & H4 & H5 & H6). eexists. split; [reflexivity|]. cbn [has_kind]. unfold double in *.
      repeat split; try (eexists; split; [reflexivity|assumption]). eexists. split; [reflexivity|]. change (2 ^ 31) with 2147483648 in H6. lia.
    + constructor; [|constructor]. cbn [fits]. apply Forall_map. apply Forall_forall. intros p _. exact Logic.I.
  - specialize (B f Hf). unfold item_with. cbn [assoc_slot]. rewrite E. exact B.
Qed.
Print Assumptions C51_any_vertices.
Example C51_case : lw_valid (mk_lwv 0 4607182418800017408 7 0 4611686018427387904 0) /\ supported (it_spec ent_lw_polyline) R2013 = true /\
  same_vertex R2010 (mk_lwv 0 0 7 0 0 0) (mk_lwv 0 0 0 0 0 0) /\ ~ same_vertex R2013 (mk_lwv 0 0 7 0 0 0) (mk_lwv 0 0 0 0 0 0).
Proof.
  repeat split; try (vm_compute; reflexivity); try (left; reflexivity); try (cbn; lia).
  intros (_ & _ & _ & _ & _ & X). vm_compute in X. discriminate X.
Qed.
