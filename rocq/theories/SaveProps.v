(** C48: whole drawings come back from a file. *)
From Verif Require Import Base CodePairModel CodePairSpec VersionModel StreamModel ExtDataModel SpecModel SpecSpec SpecCheck SpecWitness EntityData EntityProps ObjectData ObjectProps
  SectionData HeaderModel HeaderSpec HeaderProofs HeaderData HeaderProps CustomModel CustomSpec DrawingModel DrawingSpec LoadSpec FileModel FileSpec ReturnProofs PartsProofs FileProofs AssembleProofs SaveModel SaveSpec SaveProofs FileWitness.
Open Scope string_scope.
Open Scope list_scope.
Open Scope Z_scope.
Set Default Goal Selector "!".

(** * C48: saving and loading *)

(** A drawing saved as text is loaded with its contents. Missing from the full claim: text files hold doubles with twelve decimals, and strings with safe
    backslashes before R2007 ([text_storable]); the fields listed in [FileSpec]; inserts with attributes from R13 on; version R11. *)
Theorem C48_save_load_text_partial : forall v env d ps, drawing_sound v d -> code_pairs d = Ok ps -> Forall (text_storable v) ps ->
  exists bs d', save_text d = Ok bs /\ load_bytes env WINDOWS_1252 bs = Ok d' /\ drawing_returned v (handles_written v d) env d d'.
Proof. intros v env d ps H1 H2 H3. destruct (save_load_text v env d ps H1 H2 H3) as (bs & d' & A & B & C & _). exists bs, d'. auto. Qed.
Print Assumptions C48_save_load_text_partial.
(** The same for binary files, which hold ASCII strings. *)
Theorem C48_save_load_binary_partial : forall v env d ps, drawing_sound v d -> code_pairs d = Ok ps -> Forall (binary_storable v) ps ->
  exists bs d', save_binary d = Ok bs /\ load_bytes env WINDOWS_1252 bs = Ok d' /\ drawing_returned v (handles_written v d) env d d'.
Proof. intros v env d ps H1 H2 H3. destruct (save_load_binary v env d ps H1 H2 H3) as (bs & d' & A & B & C & _). exists bs, d'. auto. Qed.
Print Assumptions C48_save_load_binary_partial.
(** Whatever the values, saving a sound drawing succeeds, and the pairs it writes are read as the drawing. *)
Theorem C48_pairs_partial : forall v env d, drawing_sound v d ->
  exists ps d', code_pairs d = Ok ps /\ load (fun it => it) env (map Ok ps) = Ok d' /\ drawing_returned v (handles_written v d) env d d'.
Proof.
  intros v env d H. destruct (file_returns v env d H) as (ps & d' & W & R & L). eexists. exists d'. split; [exact W|]. split; [|exact R].
  assert (O : forall qs, reports (map Ok qs)) by (intros qs e He; apply in_map_iff in He as (q & Eq & _); discriminate Eq).
  cbn [map]. apply L.
  - destruct (version_leb R2007 v); reflexivity.
  - apply O.
  - apply redecodes_id; [exact (O (mk_pair 9 (VStr acadver) :: mk_pair 1 (VStr (version_text v)) :: ps))|]. intros p [].
Qed.
Print Assumptions C48_pairs_partial.

(** A drawing with something in every section. *)
Definition an_entity (t : itype) (l : list (string * fval)) (children : list child) : entity := entity_of (t, item_with t l) children default_mtext.
Definition a_vertex (x : N) : child := (child_of (ent_vertex, item_with ent_vertex [("location.x", FF64 x); ("location.y", FF64 x)]) default_mtext, 0%N).
Definition an_entry (k : tkind) (l : list (string * fval)) : titem := titem_of k (item_with (table_spec k) l).
Definition a_class (l : list (string * fval)) : list (string * fval) := map (fun '(n, x) => (n, match assoc_slot n l with Some y => y | None => x end)) class_defaults.
Definition an_object (t : itype) (l : list (string * fval)) : object := object_of t (item_with t l).
Definition one : N := 0x3FF0000000000000.
Definition a_drawing (v : version) (name : rstring) : drawing :=
  set_header (header_of (header_with v [("current_layer", FStr name); ("insertion_base.x", FF64 0x3FF8000000000000); ("next_available_handle", FHandle 0x100);
    ("dimension_transverse_segment_angle_in_jogged_radius", FF64 one); ("loft_operation_first_draft_angle", FF64 one); ("loft_operation_second_draft_angle", FF64 0)]))
  (set_classes [a_class [("record_name", FStr (str "ACDBPLACEHOLDER")); ("class_name", FStr (str "AcDbPlaceHolder")); ("is_entity", FBool true)]]
  (tset TLayer [an_entry TLayer [("handle", FHandle 0x10); ("name", FStr name)]]
  (set_blocks [block_of (item_with block_head [("handle", FHandle 0x20); ("name", FStr (str "B")); ("base_point.y", FF64 one)])
                 [an_entity ent_circle [("common.handle", FHandle 0x21); ("radius", FF64 one)] []]]
  (set_entities [an_entity ent_line [("common.handle", FHandle 0x30); ("common.layer", FStr name); ("p2.x", FF64 one)] [];
                 an_entity ent_polyline [("common.handle", FHandle 0x31)] [a_vertex one; a_vertex 0];
                 an_entity ent_insert [("common.handle", FHandle 0x32); ("name", FStr (str "B"))] [];
                 an_entity ent_mtext [("common.handle", FHandle 0x33); ("text", FStr (str "hello"))] []]
  (set_objects (if version_leb R2000 v then [an_object obj_dictionary_variable [("common.handle", FHandle 0x40); ("value", FStr (str "1"))]] else [])
  empty_drawing))))).
Example C48_text_case : let d := a_drawing R2010 [0x58; 0xE9; 0x4E2D]%N in
  drawing_sound R2010 d /\ exists ps, code_pairs d = Ok ps /\ Forall (text_storable R2010) ps.
Proof.
  cbv zeta. split; [apply drawing_soundb_sound; vm_compute; reflexivity|].
  apply (storesb_sound text_storableb); [apply text_storableb_sound|vm_compute; reflexivity].
Qed.
Example C48_old_text_case : let d := a_drawing R12 (str "WALLS") in
  drawing_sound R12 d /\ exists ps, code_pairs d = Ok ps /\ Forall (text_storable R12) ps.
Proof.
  cbv zeta. split; [apply drawing_soundb_sound; vm_compute; reflexivity|].
  apply (storesb_sound text_storableb); [apply text_storableb_sound|vm_compute; reflexivity].
Qed.
Example C48_binary_case : let d := a_drawing R2000 (str "walls") in
  drawing_sound R2000 d /\ exists ps, code_pairs d = Ok ps /\ Forall (binary_storable R2000) ps.
Proof.
  cbv zeta. split; [apply drawing_soundb_sound; vm_compute; reflexivity|].
  apply (storesb_sound binary_storableb); [apply binary_storableb_sound|vm_compute; reflexivity].
Qed.

(** ** What does not come back *)
Definition reload (d : drawing) : res drawing := let? bs := save_text d in load_bytes env0 WINDOWS_1252 bs.
Definition new_drawing (v : version) : drawing := set_header (header_of (header_with v [])) empty_drawing.
Definition reload_gives (d : drawing) (b : drawing -> bool) : bool := match reload d with Ok d' => b d' | Err _ => false end.
Lemma reload_gives_sound d b : reload_gives d b = true -> exists bs d', save_text d = Ok bs /\ load_bytes env0 WINDOWS_1252 bs = Ok d' /\ b d' = true.
Proof.
  unfold reload_gives, reload. intros H.
  destruct (save_text d) as [bs|]; [|discriminate H]. cbn [bind] in H. destruct (load_bytes env0 WINDOWS_1252 bs) as [d'|] eqn:E; [|discriminate H]. exists bs, d'. auto.
Qed.
Definition reload_shows (d : drawing) (b : drawing -> bool) : bool := drawing_soundb (version_in d) d && reload_gives d b.
Lemma reload_shows_sound d b : reload_shows d b = true ->
  drawing_sound (version_in d) d /\ exists bs d', save_text d = Ok bs /\ load_bytes env0 WINDOWS_1252 bs = Ok d' /\ b d' = true.
Proof.
  unfold reload_shows. intros H. apply andb_true_iff in H as [H1 H2]. split; [apply drawing_soundb_sound, H1|]. exact (reload_gives_sound d b H2).
Qed.
(** [Drawing::new()] has angles of pi/2 in its header that a text file rounds to twelve decimals, so it does not come back as it was. *)
Definition loft_changed (d d' : drawing) : bool := negb (sameb (header_store (dr_header d') "loft_operation_first_draft_angle") (header_store (dr_header d) "loft_operation_first_draft_angle")).
Lemma default_header_changes : forallb (fun v => reload_shows (new_drawing v) (loft_changed (new_drawing v))) [R2007] = true.
Proof. vm_compute. reflexivity. Qed.
Theorem C48_default_header_refuted : forall v, In v [R2007] -> exists bs d',
  save_text (new_drawing v) = Ok bs /\ load_bytes env0 WINDOWS_1252 bs = Ok d' /\
  ~ same (header_store (dr_header d') "loft_operation_first_draft_angle") (header_store (dr_header (new_drawing v)) "loft_operation_first_draft_angle").
Proof.
  intros v Hv. pose proof (proj1 (forallb_forall _ _) default_header_changes v Hv) as H. cbv beta in H.
  clear Hv; rename H into Hv. apply reload_shows_sound in Hv as [_ (bs & d' & S & L & B)]. exists bs, d'. split; [exact S|]. split; [exact L|].
  intros X. apply sameb_complete in X. unfold loft_changed in B. rewrite X in B. discriminate B.
Qed.
Print Assumptions C48_default_header_refuted.

(** The vertices of a polyline all have the handle 0xFFFFFFFFFFFFFFFF after loading, which the next save writes for every one of them. *)
Definition child_handles (d : drawing) : list N := flat_map (fun e => match en_specific e with EPolyline _ l | EInsert _ l => map snd l | _ => [] end) (dr_entities d).
Definition a_polyline (v : version) : drawing := set_entities [an_entity ent_polyline [("common.handle", FHandle 0x31)] [a_vertex one; a_vertex 0]] (new_drawing v).
Definition same_handles (d : drawing) : bool := match child_handles d with [a; b] => (a =? 18446744073709551615)%N && (b =? 18446744073709551615)%N | _ => false end.
Lemma children_renumbered : forallb (fun v => reload_shows (a_polyline v) same_handles) [R12; R13] = true.
Proof. vm_compute. reflexivity. Qed.
Theorem C48_child_handles_refuted : forall v, In v [R12; R13] -> drawing_sound v (a_polyline v) /\ exists bs d',
  save_text (a_polyline v) = Ok bs /\ load_bytes env0 WINDOWS_1252 bs = Ok d' /\ child_handles d' = [18446744073709551615; 18446744073709551615]%N.
Proof.
  intros v Hv. pose proof (proj1 (forallb_forall _ _) children_renumbered v Hv) as H. cbv beta in H.
  apply reload_shows_sound in H as [D (bs & d' & S & L & B)]. split; [replace v with (version_in (a_polyline v)) at 1 by (destruct v; vm_compute; reflexivity); exact D|]. exists bs, d'. split; [exact S|]. split; [exact L|].
  unfold same_handles in B. destruct (child_handles d') as [|a [|b [|c l]]]; try discriminate B. apply andb_true_iff in B as [B1 B2].
  apply N.eqb_eq in B1, B2. subst. reflexivity.
Qed.
Print Assumptions C48_child_handles_refuted.

(** From R13 on, an attribute is followed by its multi-line text, which ends the list of attributes: one insert with an attribute comes back as three entities. *)
Definition an_attribute (s : string) : child := (child_of (ent_attribute, item_with ent_attribute [("value", FStr (str s))]) default_mtext, 0%N).
Definition an_insert (v : version) : drawing :=
  set_entities [an_entity ent_insert [("common.handle", FHandle 0x31); ("name", FStr (str "B"))] [an_attribute "x"; an_attribute "y"]] (new_drawing v).
Definition entity_kinds (d : drawing) : list string := map (fun e => entity_type (en_specific e)) (dr_entities d).
Definition string_list_eqb (a b : list string) : bool := if list_eq_dec string_dec a b then true else false.
Definition falls_apart (d : drawing) : bool := string_list_eqb (entity_kinds d) ["Insert"; "MText"; "Attribute"; "Seqend"] && Nat.eqb (length (child_handles d)) 1.
Lemma inserts_fall_apart : forallb (fun v => reload_gives (an_insert v) falls_apart) [R13; R2000] = true.
Proof. vm_compute. reflexivity. Qed.
Theorem C48_insert_attributes_refuted : forall v, In v [R13; R2000] -> exists bs d',
  save_text (an_insert v) = Ok bs /\ load_bytes env0 WINDOWS_1252 bs = Ok d' /\ entity_kinds (an_insert v) = ["Insert"] /\ entity_kinds d' = ["Insert"; "MText"; "Attribute"; "Seqend"].
Proof.
  intros v Hv. pose proof (proj1 (forallb_forall _ _) inserts_fall_apart v Hv) as H. cbv beta in H. clear Hv; rename H into Hv.
  apply reload_gives_sound in Hv as (bs & d' & S & L & B). exists bs, d'. split; [exact S|]. split; [exact L|].
  split; [destruct v; vm_compute; reflexivity|]. unfold falls_apart, string_list_eqb in B. destruct (list_eq_dec _ _ _) as [E|]; [exact E|discriminate B].
Qed.
Print Assumptions C48_insert_attributes_refuted.

(** A multi-line needs its style, which is in a later section: a default style of that name is made first, so there are two. *)
Definition an_mline (v : version) : drawing :=
  set_objects [an_object obj_mline_style [("common.handle", FHandle 0x40); ("style_name", FStr (str "S"))]]
  (set_entities [an_entity ent_mline [("common.handle", FHandle 0x31); ("style_name", FStr (str "S"))] []] (new_drawing v)).
Definition style_names (d : drawing) : list rstring := flat_map (fun o => match ob_specific o with OMLineStyle n => [n] | _ => [] end) (dr_objects d).
Definition two_styles (d : drawing) : bool := match style_names d with [a; b] => seqb a (str "S") && seqb b (str "S") | _ => false end.
Lemma styles_doubled : forallb (fun v => reload_shows (an_mline v) two_styles) [R13; R2000] = true.
Proof. vm_compute. reflexivity. Qed.
Theorem C48_mline_style_refuted : forall v, In v [R13; R2000] -> drawing_sound (version_in (an_mline v)) (an_mline v) /\ style_names (an_mline v) = [str "S"] /\ exists bs d',
  save_text (an_mline v) = Ok bs /\ load_bytes env0 WINDOWS_1252 bs = Ok d' /\ style_names d' = [str "S"; str "S"].
Proof.
  intros v Hv. pose proof (proj1 (forallb_forall _ _) styles_doubled v Hv) as H. cbv beta in H. clear Hv; rename H into Hv.
  apply reload_shows_sound in Hv as [D (bs & d' & S & L & B)]. split; [exact D|]. split; [destruct v; vm_compute; reflexivity|]. exists bs, d'. split; [exact S|]. split; [exact L|].
  unfold two_styles in B. destruct (style_names d') as [|a [|b [|c l]]]; try discriminate B. apply andb_true_iff in B as [B1 B2]. apply seqb_eq in B1, B2. subst. reflexivity.
Qed.
Print Assumptions C48_mline_style_refuted.

(** Pairs with code 999 in an x-record are taken for comments. *)
Definition a_comment (v : version) : drawing :=
  set_objects [custom_object (CXRecord (mk_xrec 0 [new_str 1 (str "a"); new_str 999 (str "b")])) (fun s => if String.eqb s "common.handle" then FHandle 0x40 else if String.eqb s "common.__owner_handle" then FHandle 0 else FList [])] (new_drawing v).
Definition record_pairs (d : drawing) : list pair := flat_map (fun o => match ob_specific o with OCustom (CXRecord x) => xr_pairs x | _ => [] end) (dr_objects d).
Definition no_comment (d : drawing) : bool := negb (Nat.eqb (length (record_pairs d)) 0) && forallb (fun p => negb (p_code p =? 999)) (record_pairs d).
Lemma comments_dropped : forallb (fun v => reload_shows (a_comment v) no_comment) [R2000] = true.
Proof. vm_compute. reflexivity. Qed.
Theorem C48_comment_pairs_refuted : forall v, In v [R2000] -> drawing_sound (version_in (a_comment v)) (a_comment v) /\
  In (new_str 999 (str "b")) (record_pairs (a_comment v)) /\ exists bs d',
  save_text (a_comment v) = Ok bs /\ load_bytes env0 WINDOWS_1252 bs = Ok d' /\ record_pairs d' <> [] /\ forall p, In p (record_pairs d') -> p_code p <> 999.
Proof.
  intros v Hv. pose proof (proj1 (forallb_forall _ _) comments_dropped v Hv) as H. cbv beta in H. clear Hv; rename H into Hv.
  apply reload_shows_sound in Hv as [D (bs & d' & S & L & B)]. split; [exact D|]. split; [assert (E : record_pairs (a_comment v) = [new_str 1 (str "a"); new_str 999 (str "b")]) by (destruct v; vm_compute; reflexivity); rewrite E; right; left; reflexivity|]. exists bs, d'. split; [exact S|]. split; [exact L|].
  unfold no_comment in B. apply andb_true_iff in B as [B1 B2]. split; [intros E; rewrite E in B1; discriminate B1|].
  intros p Hp. rewrite forallb_forall in B2. apply Z.eqb_neq, negb_true_iff, B2, Hp.
Qed.
Print Assumptions C48_comment_pairs_refuted.
