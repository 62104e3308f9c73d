(** The vertices of lightweight polylines are those the pairs describe, and are written as they are (C70). *)
From Verif Require Import Base F64Model CodePairModel CodePairSpec VersionModel StreamModel SpecModel SpecSpec SpecCheck SpecProofs DrawingModel DocSpec FileModel EntityData DocProofs ListSpec VertexSpec VertexProofs.
Open Scope string_scope.
Open Scope list_scope.
Open Scope Z_scope.
Set Default Goal Selector "!".

(** Reading: whatever stands between them, the pairs from one 10 to the next are one vertex; what is not given is 0, what is given twice counts the second time. *)
Theorem C70_reading_vertices ps gs nx rest o r : plain ps -> p_code nx = 0 -> vertices_of ps gs ->
  read_entity (Ok (mk_pair 0 (VStr (str "LWPOLYLINE"))) :: map Ok ps ++ Ok nx :: rest) = Ok (o, r) ->
  r = Ok nx :: rest /\ exists st, o = Some (ent_lw_polyline, st) /\ st "vertices" = FList (map (fun g => vertex_value (vertex_of g)) gs).
Proof. exact (lw_read ps gs nx rest o r). Qed.
Print Assumptions C70_reading_vertices.
(** Writing: in every version with lightweight polylines, the vertices are written one after the other, each beginning with its 10. *)
Theorem C70_writing_vertices v e ws ps : entity_type (en_specific e) = "LwPolyline" -> version_leb R14 v = true ->
  as_list (entity_store e "common.extension_data_groups") = [] -> as_list (entity_store e "common.x_data") = [] ->
  entity_store e "vertices" = FList (map vertex_value ws) -> Forall (fun w => - 2 ^ 31 <= ve_id w < 2 ^ 31) ws -> FileModel.write_entity v true e = Ok ps ->
  exists own gs, ps = mk_pair 0 (VStr (str "LWPOLYLINE")) :: own /\ vertices_of own gs /\ Forall2 (stands_for v) gs ws.
Proof.
  intros K V G1 G2 L I W. refine (lw_write v e ws ps K V _ L _ W); [intros s [<-|[<-|[]]]; assumption|]. refine (Forall_impl _ _ I). intros w Hw. unfold is_i32. lia.
Qed.
Print Assumptions C70_writing_vertices.

Definition two : N := 0x4000000000000000.
Definition three : N := 0x4008000000000000.
(** Three vertices with other pairs in between; the second one has a bulge and gives its y coordinate late, the third has none. *)
Definition lw_groups : list (list pair) :=
  [[mk_pair 10 (VDouble one); mk_pair 20 (VDouble two)]; [mk_pair 10 (VDouble two); mk_pair 42 (VDouble one); mk_pair 91 (VInt 7); mk_pair 20 (VDouble three)]; [mk_pair 10 (VDouble three)]].
Definition lw_pairs : list pair :=
  [mk_pair 8 (VStr (str "A")); mk_pair 10 (VDouble one); mk_pair 39 (VDouble two); mk_pair 20 (VDouble two); mk_pair 10 (VDouble two); mk_pair 42 (VDouble one); mk_pair 91 (VInt 7); mk_pair 70 (VShort 1);
   mk_pair 20 (VDouble three); mk_pair 10 (VDouble three); mk_pair 43 (VDouble one)].
Definition lw_vertices : list vertex := [mk_vertex one two 0 0 0 0; mk_vertex two three 0 0 one 7; mk_vertex three 0 0 0 0 0].
Example C70_reading_vertices_case : plain lw_pairs /\ vertices_of lw_pairs lw_groups /\ map vertex_of lw_groups = lw_vertices /\
  match read_entity (Ok (mk_pair 0 (VStr (str "LWPOLYLINE"))) :: map Ok lw_pairs ++ [Ok (mk_pair 0 (VStr (str "ENDSEC")))]) with
  | Ok (Some x, r) => (snd x "vertices", snd x "thickness", length r) | _ => (FInt 0, FInt 0, O)
  end = (FList (map vertex_value lw_vertices), FF64 two, 1%nat).
Proof.
  split; [repeat constructor; cbn; lia|]. split; [split; [reflexivity|repeat constructor; eexists _, _; (split; [reflexivity|split; [reflexivity|repeat constructor; cbn; lia]])]|]. split; [reflexivity|vm_compute; reflexivity].
Qed.
Definition a_polyline : entity := mk_entity 47 (str "A") (str "BYLAYER") (EOther "LwPolyline") (("vertices", FList (map vertex_value lw_vertices)) :: sp_defaults (it_spec ent_lw_polyline)).
Example C70_writing_vertices_case : as_list (entity_store a_polyline "common.extension_data_groups") = [] /\ as_list (entity_store a_polyline "common.x_data") = [] /\
  entity_store a_polyline "vertices" = FList (map vertex_value lw_vertices) /\
  map (fun v => match FileModel.write_entity v true a_polyline with Ok (z :: own) => map p_code (filter of_vertex own) | _ => [] end) [R14; R2013] = [[10; 20; 10; 20; 42; 10; 20]; [10; 20; 91; 10; 20; 91; 42; 10; 20; 91]].
Proof. split; [|split; [|split]]; vm_compute; reflexivity. Qed.
(** A coordinate before the first 10 is an error. *)
Theorem C70_vertex_not_begun p ps nx rest : In (p_code p) [20; 40; 41; 42; 91] -> plain (p :: ps) -> p_code nx = 0 -> forall x,
  read_entity (Ok (mk_pair 0 (VStr (str "LWPOLYLINE"))) :: map Ok (p :: ps) ++ Ok nx :: rest) <> Ok x.
Proof. exact (lw_not_begun p ps nx rest). Qed.
Print Assumptions C70_vertex_not_begun.
Example C70_vertex_not_begun_case : plain [mk_pair 20 (VDouble two); mk_pair 10 (VDouble one)] /\
  match read_entity (map Ok [mk_pair 0 (VStr (str "LWPOLYLINE")); mk_pair 20 (VDouble two); mk_pair 10 (VDouble one); mk_pair 0 (VStr (str "ENDSEC"))]) with Err UnexpectedEmptySet => true | _ => false end = true.
Proof. split; [repeat constructor; cbn; lia|vm_compute; reflexivity]. Qed.
