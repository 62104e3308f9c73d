(** Group codes and header variables mean what the DXF reference says (C61, C62). *)
From Verif Require Import Base F64Model CodePairModel CodePairSpec VersionModel StreamModel SpecModel SpecSpec SpecCheck SpecProofs DrawingModel HeaderModel HeaderData DocSpec FileModel EntityData TableData ObjectData DocProofs DocHeaderProofs.
From Verif Require HeaderProps.
Open Scope string_scope.
Open Scope list_scope.
Open Scope Z_scope.
Set Default Goal Selector "!".

(** An entity that is read has the documented kind, ends before the next 0 pair, and each documented field is what the last pair with its code says, or its default. *)
Theorem C61_reading_entities ty kind rows ps nx rest o r : In (ty, kind, rows) documented_entities -> plain ps -> p_code nx = 0 ->
  read_entity (Ok (mk_pair 0 (VStr (str ty))) :: map Ok ps ++ Ok nx :: rest) = Ok (o, r) ->
  r = Ok nx :: rest /\ exists x, o = Some x /\ kind_of x = kind /\ forall w, In w (common_rows_of ty ++ rows) -> field_follows ps (snd x) w.
Proof. exact (entity_follows ty kind rows ps nx rest o r). Qed.
Print Assumptions C61_reading_entities.
(** Documented pairs are never an error, in whatever order they come and however often a code is repeated. *)
Theorem C61_documented_entities_accepted ty kind rows ps nx rest : In (ty, kind, rows) documented_entities ->
  Forall (fun p => typed p /\ exists w x, In w (common_rows_of ty ++ rows) /\ p_code p = rw_code w /\ understood (rw_means w) (p_value p) = Some x) ps -> p_code nx = 0 ->
  exists x, read_entity (Ok (mk_pair 0 (VStr (str ty))) :: map Ok ps ++ Ok nx :: rest) = Ok (Some x, Ok nx :: rest) /\ kind_of x = kind.
Proof. exact (entity_accepted ty kind rows ps nx rest). Qed.
Print Assumptions C61_documented_entities_accepted.
(** A circle on layer A: the radius is given twice, the centre has no z, a code the reference does not have for circles is there too. *)
Definition circle_pairs : list pair :=
  [mk_pair 8 (VStr (str "A")); mk_pair 40 (VDouble 0x4000000000000000); mk_pair 10 (VDouble one); mk_pair 20 (VDouble 0x4000000000000000); mk_pair 70 (VShort 3);
   mk_pair 40 (VDouble 0x4008000000000000); mk_pair 60 (VShort 1)].
Definition next_item : pair := mk_pair 0 (VStr (str "ENDSEC")).
Example C61_reading_entities_ex :
  In ("CIRCLE", "Circle", place 10 "center" ++ up "normal" ++ [real 39 "thickness" 0; real 40 "radius" 0]) documented_entities /\ plain circle_pairs /\
  match read_entity (Ok (mk_pair 0 (VStr (str "CIRCLE"))) :: map Ok circle_pairs ++ [Ok next_item]) with
  | Ok (Some x, r) => (kind_of x, map (snd x) ["radius"; "center.x"; "center.y"; "center.z"; "normal.z"; "common.is_visible"], map (snd x) ["common.layer"], length r)
  | _ => ("", [], [], O)
  end = ("Circle", [FF64 0x4008000000000000; FF64 one; FF64 0x4000000000000000; FF64 0; FF64 one; FBool false], [FStr (str "A")], 1%nat).
Proof.
  split; [cbn [In documented_entities]; tauto|]. split; [|vm_compute; reflexivity].
  repeat constructor; cbn; lia.
Qed.
Example C61_documented_entities_accepted_ex : Forall (fun p => typed p /\ exists w x, In w (common_rows_of "LINE" ++ place 10 "p1" ++ place 11 "p2" ++ up "extrusion_direction" ++ [real 39 "thickness" 0]) /\
  p_code p = rw_code w /\ understood (rw_means w) (p_value p) = Some x) [mk_pair 31 (VDouble one); mk_pair 5 (VStr (str "2F"))].
Proof.
  constructor; [|constructor; [|constructor]].
  - split; [exists 10, 59; split; [cbn; tauto|cbn; lia]|]. exists (real 31 "p2.z" 0), (FF64 one). split; [cbn; tauto|split; reflexivity].
  - split; [exists 0, 9; split; [cbn; tauto|cbn; lia]|]. exists (mk_row 5 "common.handle" Hex (FHandle 0) R2000), (FHandle 47). split; [cbn; tauto|split; reflexivity].
Qed.

(** The items of the symbol tables. *)
Theorem C61_reading_tables k ty rows ps nx rest o r : In (ty, rows) documented_tables -> table_type k = str ty -> plain ps -> p_code nx = 0 ->
  read_item (it_spec (table_spec k)) (map Ok ps ++ Ok nx :: rest) = Ok (o, r) -> r = Ok nx :: rest /\ exists st, o = Some st /\ forall w, In w (table_rows_of ty ++ rows) -> field_follows ps st w.
Proof. intros H E P Z R. exact (item_follows _ _ _ _ _ _ _ (proj1 (table_checked _ _ _ H E)) P Z R). Qed.
Print Assumptions C61_reading_tables.
Theorem C61_documented_tables_accepted k ty rows ps nx rest : In (ty, rows) documented_tables -> table_type k = str ty ->
  Forall (fun p => typed p /\ exists w x, In w (table_rows_of ty ++ rows) /\ p_code p = rw_code w /\ understood (rw_means w) (p_value p) = Some x) ps -> p_code nx = 0 ->
  exists st, read_item (it_spec (table_spec k)) (map Ok ps ++ Ok nx :: rest) = Ok (Some st, Ok nx :: rest).
Proof. intros H E P Z. destruct (table_checked _ _ _ H E) as [C1 C2]. exact (item_accepts _ _ _ _ _ C1 C2 P Z). Qed.
Print Assumptions C61_documented_tables_accepted.
Example C61_reading_tables_ex : map (fun e => existsb (fun k => seqb (table_type k) (str (fst e))) table_kinds) documented_tables = repeat true 9 /\
  match read_item (it_spec (table_spec TStyle)) (map Ok [mk_pair 2 (VStr (str "ROMANS")); mk_pair 41 (VDouble 0x3FE0000000000000); mk_pair 3 (VStr (str "romans.shx"))] ++ [Ok next_item]) with
  | Ok (Some st, r) => map st ["name"; "width_factor"; "text_height"; "primary_font_file_name"]
  | _ => []
  end = [FStr (str "ROMANS"); FF64 0x3FE0000000000000; FF64 0; FStr (str "romans.shx")].
Proof. split; vm_compute; reflexivity. Qed.

(** Written entities: the type, then pairs of which those with a documented code carry the documented field, which is written unless it has its default. *)
Theorem C61_writing_entities ty kind rows v e ps : In (ty, kind, rows) documented_entities -> entity_type (en_specific e) = kind -> version_leb (entity_since ty) v = true ->
  as_list (entity_store e "common.extension_data_groups") = [] -> as_list (entity_store e "common.x_data") = [] -> FileModel.write_entity v true e = Ok ps ->
  exists own qs, ps = mk_pair 0 (VStr (str ty)) :: own ++ qs /\ (qs = [] \/ exists q l, qs = q :: l /\ p_code q = 0) /\
    forall w, In w (common_rows_of ty ++ rows) -> kept_out ty (rw_code w) = false -> version_leb (rw_since w) v = true -> pairs_follow own (entity_store e) w.
Proof. intros H K V G1 G2 W. refine (entity_pairs_follow ty kind rows v e ps H K V _ W). intros s [<-|[<-|[]]]; assumption. Qed.
Print Assumptions C61_writing_entities.
Theorem C61_writing_tables k ty rows v x ps : In (ty, rows) documented_tables -> table_type k = str ty ->
  as_list (titem_store x "extension_data_groups") = [] -> as_list (titem_store x "x_data") = [] -> write_titem k v true x = Ok ps ->
  exists own, ps = mk_pair 0 (VStr (str ty)) :: own /\
    forall w, In w (table_rows_of ty ++ rows) -> kept_out ty (rw_code w) = false -> version_leb (rw_since w) v = true -> pairs_follow own (titem_store x) w.
Proof. intros H E G1 G2 W. refine (table_pairs_follow k ty rows v x ps H E _ W). intros s [<-|[<-|[]]]; assumption. Qed.
Print Assumptions C61_writing_tables.
Definition a_line : entity :=
  mk_entity 47 (str "A") (str "BYLAYER") (EOther "Line") (("p1.x", FF64 one) :: ("p2.z", FF64 0x4000000000000000) :: sp_defaults (it_spec ent_line)).
Example C61_writing_entities_ex : as_list (entity_store a_line "common.extension_data_groups") = [] /\ as_list (entity_store a_line "common.x_data") = [] /\
  match FileModel.write_entity R2010 true a_line with
  | Ok (z :: own) => (p_value z, map (fun c => map p_value (filter (fun p => p_code p =? c) own)) [5; 8; 6; 10; 31])
  | _ => (VShort 0, [])
  end = (VStr (str "LINE"), [[VStr (str "2F")]; [VStr (str "A")]; []; [VDouble one]; [VDouble 0x4000000000000000]]).
Proof. split; [|split]; vm_compute; reflexivity. Qed.
Definition a_style : titem := mk_ti 0x11 (str "ROMANS") (("width_factor", FF64 0x3FE0000000000000) :: sp_defaults (it_spec (table_spec TStyle))).
Example C61_writing_tables_ex : as_list (titem_store a_style "extension_data_groups") = [] /\ as_list (titem_store a_style "x_data") = [] /\
  match write_titem TStyle R2010 true a_style with
  | Ok (z :: own) => (p_value z, map (fun c => map p_value (filter (fun p => p_code p =? c) own)) [5; 2; 41; 3])
  | _ => (VShort 0, [])
  end = (VStr (str "STYLE"), [[VStr (str "11")]; [VStr (str "ROMANS")]; [VDouble 0x3FE0000000000000]; [VStr (str "txt")]]).
Proof. split; [|split]; vm_compute; reflexivity. Qed.

(** Objects. *)
Theorem C61_reading_objects ty kind rows t ps nx rest o r : In (ty, kind, rows) documented_objects -> In t objects -> sp_type (it_spec t) = str ty -> plain ps -> p_code nx = 0 ->
  read_item (it_spec t) (map Ok ps ++ Ok nx :: rest) = Ok (o, r) -> sp_name (it_spec t) = kind /\ r = Ok nx :: rest /\ exists st, o = Some st /\ forall w, In w (object_rows_of ty ++ rows) -> field_follows ps st w.
Proof. intros H Ht E P Z R. destruct (object_checked _ _ _ _ H Ht E) as (K & _ & C & _ & _). split; [exact K|]. exact (item_follows _ _ _ _ _ _ _ C P Z R). Qed.
Print Assumptions C61_reading_objects.
Theorem C61_documented_objects_accepted ty kind rows t ps nx rest : In (ty, kind, rows) documented_objects -> In t objects -> sp_type (it_spec t) = str ty ->
  Forall (fun p => typed p /\ exists w x, In w (object_rows_of ty ++ rows) /\ p_code p = rw_code w /\ understood (rw_means w) (p_value p) = Some x) ps -> p_code nx = 0 ->
  exists st, read_item (it_spec t) (map Ok ps ++ Ok nx :: rest) = Ok (Some st, Ok nx :: rest).
Proof. intros H Ht E P Z. destruct (object_checked _ _ _ _ H Ht E) as (_ & _ & C1 & C2 & _). exact (item_accepts _ _ _ _ _ C1 C2 P Z). Qed.
Print Assumptions C61_documented_objects_accepted.
Theorem C61_writing_objects ty kind rows t v st ps : In (ty, kind, rows) documented_objects -> In t objects -> sp_type (it_spec t) = str ty -> version_leb (object_since ty) v = true ->
  as_list (st "common.extension_data_groups") = [] -> as_list (st "common.x_data") = [] -> write_typed t v true st (Ok []) = Ok ps ->
  exists own, ps = mk_pair 0 (VStr (str ty)) :: own /\ forall w, In w (object_rows_of ty ++ rows) -> version_leb (rw_since w) v = true -> pairs_follow own st w.
Proof. intros H Ht E V G1 G2 W. refine (object_pairs_follow ty kind rows t v st ps H Ht E V _ W). intros s [<-|[<-|[]]]; assumption. Qed.
Print Assumptions C61_writing_objects.
Definition group_store : store := upd (upd (default_of (it_spec obj_group)) "is_named" (FBool false)) "description" (FStr (str "walls")).
Example C61_objects_ex : In ("GROUP", "Group", [text 300 "description" ""; mk_row 70 "is_named" No (FBool true) R2000; yes 71 "is_selectable" true]) documented_objects /\
  existsb (fun t => String.eqb (sp_name (it_spec t)) "Group" && seqb (sp_type (it_spec t)) (str "GROUP")) objects = true /\
  match read_item (it_spec obj_group) (map Ok [mk_pair 300 (VStr (str "walls")); mk_pair 70 (VShort 1)] ++ [Ok next_item]) with
  | Ok (Some st, _) => map st ["description"; "is_named"; "is_selectable"] | _ => []
  end = [FStr (str "walls"); FBool false; FBool true] /\
  as_list (group_store "common.extension_data_groups") = [] /\ as_list (group_store "common.x_data") = [] /\
  match write_typed obj_group R2010 true group_store (Ok []) with
  | Ok ps => map p_value (filter (fun p => existsb (Z.eqb (p_code p)) [0; 70; 71; 300]) ps) | _ => []
  end = [VStr (str "GROUP"); VStr (str "walls"); VShort 1; VShort 1].
Proof. split; [cbn [In documented_objects]; tauto|]. split; [vm_compute; reflexivity|]. split; [vm_compute; reflexivity|]. split; [vm_compute; reflexivity|]. split; vm_compute; reflexivity. Qed.

(** What the reference says of further codes and the library does not do. *)
Definition table_gives (k : tkind) (ps : list pair) (s : string) : option fval :=
  match read_item (it_spec (table_spec k)) (map Ok ps ++ [Ok next_item]) with Ok (Some st, _) => Some (st s) | _ => None end.
Lemma table_gives_sound k ps s x : table_gives k ps s = Some x -> exists st r, read_item (it_spec (table_spec k)) (map Ok ps ++ [Ok next_item]) = Ok (Some st, r) /\ st s = x.
Proof.
  unfold table_gives. destruct (read_item _ _) as [[[st|] r]|]; try discriminate. intros H. injection H as H. exists st, r. split; [reflexivity|exact H].
Qed.
(** 281 and 282 of a DIMSTYLE (DIMSD1, DIMSD2) suppress dimension lines; the library takes them for 75 and 76 (DIMSE1, DIMSE2), the extension lines, so that the 0 of a following 281 undoes
    the 1 of 75. *)
Theorem C61_dimension_lines_refuted : exists ps st r, plain ps /\ last_under 75 ps = Some (VShort 1) /\ read_item (it_spec (table_spec TDimStyle)) (map Ok ps ++ [Ok next_item]) = Ok (Some st, r) /\
  st "suppress_first_dimension_extension_line" = FBool false.
Proof.
  exists [mk_pair 75 (VShort 1); mk_pair 281 (VShort 0)]. destruct (table_gives_sound TDimStyle [mk_pair 75 (VShort 1); mk_pair 281 (VShort 0)] "suppress_first_dimension_extension_line" (FBool false)) as (st & r & E & F); [vm_compute; reflexivity|].
  exists st, r. split; [repeat constructor; cbn; lia|]. split; [reflexivity|]. split; assumption.
Qed.
Print Assumptions C61_dimension_lines_refuted.
(** The handle of a DIMSTYLE is under 105, which is not read: the style gets another one. *)
Theorem C61_dimstyle_handle_refuted : exists ps st r, plain ps /\ last_under 105 ps = Some (VStr (str "27")) /\ read_item (it_spec (table_spec TDimStyle)) (map Ok ps ++ [Ok next_item]) = Ok (Some st, r) /\
  st "handle" = FHandle 0.
Proof.
  exists [mk_pair 105 (VStr (str "27"))]. destruct (table_gives_sound TDimStyle [mk_pair 105 (VStr (str "27"))] "handle" (FHandle 0)) as (st & r & E & F); [vm_compute; reflexivity|].
  exists st, r. split; [repeat constructor; cbn; lia|]. split; [reflexivity|]. split; assumption.
Qed.
Print Assumptions C61_dimstyle_handle_refuted.
(** DIMZIN (78) of a DIMSTYLE may be 8, leading zeros are left out; 0 is read. *)
Theorem C61_zero_suppression_refuted : exists ps st r, plain ps /\ last_under 78 ps = Some (VShort 8) /\ read_item (it_spec (table_spec TDimStyle)) (map Ok ps ++ [Ok next_item]) = Ok (Some st, r) /\
  st "dimension_unit_zero_suppression" = FInt 0.
Proof.
  exists [mk_pair 78 (VShort 8)]. destruct (table_gives_sound TDimStyle [mk_pair 78 (VShort 8)] "dimension_unit_zero_suppression" (FInt 0)) as (st & r & E & F); [vm_compute; reflexivity|].
  exists st, r. split; [repeat constructor; cbn; lia|]. split; [reflexivity|]. split; assumption.
Qed.
Print Assumptions C61_zero_suppression_refuted.
(** The y coordinates of the clipping boundary of a WIPEOUT are under 24, which is not read: no vertex is left. *)
Theorem C61_wipeout_refuted : exists ps st r, plain ps /\ last_under 14 ps = Some (VDouble one) /\ last_under 24 ps = Some (VDouble one) /\ read_item (it_spec ent_wipeout) (map Ok ps ++ [Ok next_item]) = Ok (Some st, r) /\
  st "clipping_vertices" = FList [].
Proof.
  exists [mk_pair 14 (VDouble one); mk_pair 24 (VDouble one)]. set (x := read_item (it_spec ent_wipeout) (map Ok [mk_pair 14 (VDouble one); mk_pair 24 (VDouble one)] ++ [Ok next_item])).
  assert (match x with Ok (Some st, _) => Some (st "clipping_vertices") | _ => None end = Some (FList [])) as K by (vm_compute; reflexivity). clearbody x. destruct x as [[[st|] r]|]; try discriminate K. injection K as K.
  exists st, r. split; [repeat constructor; cbn; lia|]. split; [reflexivity|]. split; [reflexivity|]. split; [reflexivity|exact K].
Qed.
Print Assumptions C61_wipeout_refuted.

(** The file of the specular map of a material (4) is taken for that of the normal map; the gloss factor (44) is read but not written. *)
Definition material_pairs : list pair := [mk_pair 4 (VStr (str "shine.jpg")); mk_pair 44 (VDouble one)].
Definition gloss_left_out (st : store) : bool := match write_item (it_spec obj_material) R2018 true st with Ok ps => forallb (fun p => negb (p_code p =? 44)) ps | Err _ => false end.
Lemma gloss_left_out_sound st : gloss_left_out st = true -> exists ps, write_item (it_spec obj_material) R2018 true st = Ok ps /\ Forall (fun p => p_code p <> 44) ps.
Proof.
  unfold gloss_left_out. destruct (write_item (it_spec obj_material) R2018 true st) as [ps|]; [|discriminate]. intros K. exists ps. split; [reflexivity|]. apply Forall_forall. intros p Hp. rewrite forallb_forall in K. specialize (K p Hp). lia.
Qed.
Theorem C61_material_refuted : exists st r ps, plain material_pairs /\ last_under 4 material_pairs = Some (VStr (str "shine.jpg")) /\ read_item (it_spec obj_material) (map Ok material_pairs ++ [Ok next_item]) = Ok (Some st, r) /\
  st "specular_map_file_name" = FStr [] /\ st "normal_map_file_name" = FStr (str "shine.jpg") /\ st "specular_gloss_factor" = FF64 one /\
  write_item (it_spec obj_material) R2018 true st = Ok ps /\ Forall (fun p => p_code p <> 44) ps.
Proof.
  set (x := read_item (it_spec obj_material) (map Ok material_pairs ++ [Ok next_item])).
  assert (match x with Ok (Some st, _) => Some (st "specular_map_file_name", st "normal_map_file_name", st "specular_gloss_factor", gloss_left_out st) | _ => None end = Some (FStr [], FStr (str "shine.jpg"), FF64 one, true)) as K by (vm_compute; reflexivity).
  clearbody x. destruct x as [[[st|] r]|]; try discriminate K. injection K as K1 K2 K3 K4. destruct (gloss_left_out_sound st K4) as (ps & W & F). exists st, r, ps. split; [repeat constructor; cbn; lia|]. split; [reflexivity|]. split; [reflexivity|].
  split; [exact K1|]. split; [exact K2|]. split; [exact K3|]. split; [exact W|exact F].
Qed.
Print Assumptions C61_material_refuted.
(** The colour of fog is three values under 280; each of them is taken for red. *)
Definition fog_pairs : list pair := [mk_pair 280 (VShort 10); mk_pair 280 (VShort 20); mk_pair 280 (VShort 30)].
Theorem C61_fog_refuted : exists st r, plain fog_pairs /\ read_item (it_spec obj_render_environment) (map Ok fog_pairs ++ [Ok next_item]) = Ok (Some st, r) /\
  map st ["fog_color_red"; "fog_color_green"; "fog_color_blue"] = [FInt 30; FInt 0; FInt 0].
Proof.
  set (x := read_item (it_spec obj_render_environment) (map Ok fog_pairs ++ [Ok next_item])).
  assert (match x with Ok (Some st, _) => Some (map st ["fog_color_red"; "fog_color_green"; "fog_color_blue"]) | _ => None end = Some [FInt 30; FInt 0; FInt 0]) as K by (vm_compute; reflexivity). clearbody x. destruct x as [[[st|] r]|]; try discriminate K.
  injection K as K. exists st, r. split; [repeat constructor; cbn; lia|]. split; [reflexivity|]. cbn [map]. congruence.
Qed.
Print Assumptions C61_fog_refuted.

(** * The header *)
Lemma variable_checks n c f m v : In (n, c, f, m, v) documented_variables ->
  hrow_read header_spec (n, c, f, m, v) = true /\ hrow_written header_spec (n, c, f, m, v) = true /\ hrow_typed header_spec (n, c, f, m, v) = true.
Proof.
  intros H. pose proof (proj1 (forallb_forall _ _) variables_checked _ H) as C. apply andb_true_iff in C as [C C3]. apply andb_true_iff in C as [C1 C2]. split; [exact C1|]. split; assumption.
Qed.
(** A header that is read: each documented field is the last value given to its variable, or that of a new header. [sw] is the change to UTF-8 at $ACADVER; it makes no difference to the pairs. *)
Theorem C62_reading_variables n c f m v sw u env ps nx rest h u' r : In (n, c, f, m, v) documented_variables -> p_code nx = 0 -> Forall (fun p => p_code p <> 0) ps ->
  (u = true \/ forall l, sw (map Ok l ++ Ok nx :: rest) = map Ok l ++ Ok nx :: rest) ->
  read_header header_spec sw u env (map Ok ps ++ Ok nx :: rest) = Ok (h, u', r) -> r = Ok nx :: rest /\
  match variable_value (str n) c None None ps with None => h f = header_default header_spec env f | Some v => forall x, understood m v = Some x -> h f = x end.
Proof. intros H Z P W R. exact (header_row_read _ _ _ _ _ _ _ _ _ _ _ _ _ _ _ (proj1 (variable_checks _ _ _ _ _ H)) Z P W R). Qed.
Print Assumptions C62_reading_variables.
(** Documented variables in any order, each as often as it likes, are accepted. *)
Theorem C62_documented_variables_accepted sw u env l nx rest : p_code nx = 0 ->
  Forall (fun x => typed (mk_pair (snd (fst x)) (snd x)) /\ exists f m v y, In (fst (fst x), snd (fst x), f, m, v) documented_variables /\ understood m (snd x) = Some y) l ->
  exists h, read_header header_spec sw u env (map Ok (flat_map (fun x => [mk_pair 9 (VStr (str (fst (fst x)))); mk_pair (snd (fst x)) (snd x)]) l) ++ Ok nx :: rest) = Ok (h, u, Ok nx :: rest).
Proof.
  intros Z F. unfold read_header. destruct (header_accepts header_spec documented_variables (if u then None else Some (fun h r => header_loop header_spec None (Some (str "$ACADVER")) h (sw r)))) with (nx := nx) (rest := rest) (l := l) (cur := @None rstring) (h := header_default header_spec env) as (h & E).
  - apply forallb_forall. intros [[[[n c] f] m] v] H. destruct (variable_checks _ _ _ _ _ H) as (H1 & _ & H3). rewrite H1, H3. reflexivity.
  - exact Z.
  - exact F.
  - exists h. rewrite E. destruct u; reflexivity.
Qed.
Print Assumptions C62_documented_variables_accepted.
(** A header that is written has the variable, and its value is the field. *)
Theorem C62_writing_variables n c f m v h ps : In (n, c, f, m, v) documented_variables -> version_leb v (version_of (h "version")) = true -> expressible m c (h f) -> write_header header_spec h = Ok ps ->
  exists x, variable_value (str n) c None None ps = Some x /\ understood m x = Some (h f).
Proof.
  intros H V X W. destruct (variable_checks _ _ _ _ _ H) as (R & C & _). refine (header_row_written _ _ _ _ _ _ _ _ C V X _ W). unfold hrow_read in R. apply andb_true_iff in R as [_ R]. lia.
Qed.
Print Assumptions C62_writing_variables.
Definition header_pairs : list pair :=
  [mk_pair 9 (VStr (str "$ACADVER")); mk_pair 1 (VStr (str "AC1024")); mk_pair 9 (VStr (str "$LTSCALE")); mk_pair 40 (VDouble one); mk_pair 9 (VStr (str "$INSBASE")); mk_pair 20 (VDouble one);
   mk_pair 9 (VStr (str "$LTSCALE")); mk_pair 40 (VDouble 0x4000000000000000); mk_pair 9 (VStr (str "$MIRRTEXT")); mk_pair 70 (VShort 0)].
Example C62_reading_variables_ex : Forall (fun p => p_code p <> 0) header_pairs /\ length documented_variables = 268%nat /\
  match read_header header_spec (fun it => it) false HeaderProps.env0 (map Ok header_pairs ++ [Ok next_item]) with
  | Ok (h, u, r) => (map h ["line_type_scale"; "insertion_base.y"; "insertion_base.x"; "mirror_text"; "trace_width"], u, length r)
  | _ => ([], false, O)
  end = ([FF64 0x4000000000000000; FF64 one; FF64 0; FBool false; header_default header_spec HeaderProps.env0 "trace_width"], true, 1%nat).
Proof. split; [repeat constructor; discriminate|]. split; [reflexivity|vm_compute; reflexivity]. Qed.
Example C62_documented_variables_accepted_ex : Forall (fun x => typed (mk_pair (snd (fst x)) (snd x)) /\ exists f m v y, In (fst (fst x), snd (fst x), f, m, v) documented_variables /\ understood m (snd x) = Some y)
  [("$FILLMODE", 70, VShort 0); ("$LTSCALE", 40, VDouble one)].
Proof.
  constructor; [|constructor; [|constructor]]; cbn [fst snd].
  - split; [exists 60, 79; split; [cbn; tauto|cbn; lia]|]. exists "fill_mode_on", Yes, R2000, (FBool false). split; [|reflexivity]. apply (nth_error_In documented_variables 17). reflexivity.
  - split; [exists 10, 59; split; [cbn; tauto|cbn; lia]|]. exists "line_type_scale", Real, R2000, (FF64 one). split; [|reflexivity]. apply (nth_error_In documented_variables 20). reflexivity.
Qed.
Example C62_writing_variables_ex : exists ps, write_header header_spec (upd (header_default header_spec HeaderProps.env0) "line_type_scale" (FF64 0x4000000000000000)) = Ok ps /\
  variable_value (str "$LTSCALE") 40 None None ps = Some (VDouble 0x4000000000000000).
Proof.
  set (w := write_header header_spec (upd (header_default header_spec HeaderProps.env0) "line_type_scale" (FF64 0x4000000000000000))).
  assert (match w with Ok ps => variable_value (str "$LTSCALE") 40 None None ps | _ => None end = Some (VDouble 0x4000000000000000)) as K by (vm_compute; reflexivity).
  clearbody w. destruct w as [ps|]; [|discriminate K]. exists ps. split; [reflexivity|exact K].
Qed.
Definition header_gives (ps : list pair) (s : string) : option fval :=
  match read_header header_spec (fun it => it) true HeaderProps.env0 (map Ok ps ++ [Ok next_item]) with Ok (h, _, _) => Some (h s) | _ => None end.
Lemma header_gives_sound ps s x : header_gives ps s = Some x -> exists h u r, read_header header_spec (fun it => it) true HeaderProps.env0 (map Ok ps ++ [Ok next_item]) = Ok (h, u, r) /\ h s = x.
Proof.
  unfold header_gives. destruct (read_header _ _ _ _ _) as [[[h u] r]|]; [|discriminate]. intros H. injection H as H. exists h, u, r. split; [reflexivity|exact H].
Qed.
(** "Fill mode on if nonzero": 2 is not zero, but off is read; likewise for all the other flags. *)
Theorem C62_nonzero_refuted : exists z h u r, z <> 0 /\ read_header header_spec (fun it => it) true HeaderProps.env0 (map Ok [mk_pair 9 (VStr (str "$FILLMODE")); mk_pair 70 (VShort z)] ++ [Ok next_item]) = Ok (h, u, r) /\
  h "fill_mode_on" = FBool false.
Proof.
  exists 2. destruct (header_gives_sound [mk_pair 9 (VStr (str "$FILLMODE")); mk_pair 70 (VShort 2)] "fill_mode_on" (FBool false)) as (h & u & r & E & F); [vm_compute; reflexivity|].
  exists h, u, r. split; [discriminate|]. split; assumption.
Qed.
Print Assumptions C62_nonzero_refuted.
(** $DIMZIN 8, leading zeros are left out, is read as 0. *)
Theorem C62_zero_suppression_refuted : exists h u r, read_header header_spec (fun it => it) true HeaderProps.env0 (map Ok [mk_pair 9 (VStr (str "$DIMZIN")); mk_pair 70 (VShort 8)] ++ [Ok next_item]) = Ok (h, u, r) /\
  h "dimension_unit_zero_suppression" = FInt 0.
Proof. exact (header_gives_sound [mk_pair 9 (VStr (str "$DIMZIN")); mk_pair 70 (VShort 8)] "dimension_unit_zero_suppression" (FInt 0) ltac:(vm_compute; reflexivity)). Qed.
Print Assumptions C62_zero_suppression_refuted.
