(** Dimensions are of the kind their subclass marker announces and have the documented fields (C71). *)
From Verif Require Import Base F64Model CodePairModel CodePairSpec VersionModel SpecModel SpecSpec DrawingModel DocSpec FileModel EntityData DocProofs DimensionSpec DimensionProofs.
Open Scope string_scope.
Open Scope list_scope.
Open Scope Z_scope.
Set Default Goal Selector "!".

(** The kind is that of the first marker that announces one. The common dimension fields are what the last pairs before it say, the fields of the kind what the
    last pairs behind it say; the fields all entities have are read on both sides. *)
Theorem C71_reading_dimensions m kind rows base own nx rest o r : In (m, kind, rows) dimension_kinds -> plain base -> no_kind base -> plain own -> p_code nx = 0 ->
  read_entity (Ok dimension_start :: map Ok (base ++ marker_of m :: own) ++ Ok nx :: rest) = Ok (o, r) ->
  r = Ok nx :: rest /\ exists x, o = Some x /\ kind_of x = kind /\ of_kind base own m rows (snd x).
Proof. exact (dimension_follows m kind rows base own nx rest o r). Qed.
Print Assumptions C71_reading_dimensions.
(** Documented pairs are never an error, and the dimension is not lost. *)
Theorem C71_documented_dimensions_accepted m kind rows base own nx rest : In (m, kind, rows) dimension_kinds -> no_kind base -> p_code nx = 0 ->
  Forall (fun p => typed p /\ ((exists w x, In w (common_rows ++ dimension_rows) /\ p_code p = rw_code w /\ understood (rw_means w) (p_value p) = Some x) \/ p_code p = 70 \/ p_code p = 100)) base ->
  Forall (fun p => typed p /\ ((exists w x, In w (common_rows ++ rows) /\ p_code p = rw_code w /\ understood (rw_means w) (p_value p) = Some x) \/ p_code p = 70 \/ p_code p = 100)) own ->
  exists x, read_entity (Ok dimension_start :: map Ok (base ++ marker_of m :: own) ++ Ok nx :: rest) = Ok (Some x, Ok nx :: rest) /\ kind_of x = kind.
Proof. intros H N Z B O. exact (dimension_accepted m kind rows base own nx rest H B N O Z). Qed.
Print Assumptions C71_documented_dimensions_accepted.
(** A radius dimension; the code 40 before the marker and the code 10 and the second marker behind it mean nothing. *)
Definition radius_base : list pair :=
  [mk_pair 5 (VStr (str "2F")); marker_of "AcDbEntity"; mk_pair 8 (VStr (str "A")); marker_of "AcDbDimension"; mk_pair 40 (VDouble one); mk_pair 10 (VDouble one); mk_pair 1 (VStr (str "R <>"));
   mk_pair 70 (VShort 164); mk_pair 71 (VShort 5)].
Definition radius_own : list pair :=
  [mk_pair 15 (VDouble 0x4000000000000000); mk_pair 40 (VDouble 0x4008000000000000); mk_pair 10 (VDouble 0x4008000000000000); marker_of "AcDbOrdinateDimension"; mk_pair 62 (VShort 3)].
Definition the_end : pair := mk_pair 0 (VStr (str "ENDSEC")).
Lemma radius_no_kind : no_kind radius_base.
Proof. repeat apply Forall_cons; try apply Forall_nil; intros m kind rows Hin E; repeat (destruct Hin as [Hin|Hin]; [injection Hin as <- <- <-; discriminate E|]); destruct Hin. Qed.
Example C71_reading_dimensions_ex : In ("AcDbRadialDimension", "RadialDimension", place 15 "definition_point_2" ++ [real 40 "leader_length" 0]) dimension_kinds /\ plain radius_base /\ no_kind radius_base /\ plain radius_own /\
  match read_entity (Ok dimension_start :: map Ok (radius_base ++ marker_of "AcDbRadialDimension" :: radius_own) ++ [Ok the_end]) with
  | Ok (Some x, r) => (kind_of x, map (snd x) ["dimension_base.definition_point_1.x"; "definition_point_2.x"; "leader_length"; "dimension_base.dimension_type"; "dimension_base.is_block_reference_referenced_by_this_block_only";
                                               "dimension_base.is_at_user_defined_location"; "dimension_base.attachment_point"; "common.color"], map (snd x) ["common.layer"; "dimension_base.text"], length r)
  | _ => ("", [], [], O)
  end = ("RadialDimension", [FF64 one; FF64 0x4000000000000000; FF64 0x4008000000000000; FInt 4; FBool true; FBool true; FInt 5; FInt 3], [FStr (str "A"); FStr (str "R <>")], 1%nat).
Proof.
  split; [cbn [In dimension_kinds]; tauto|]. split; [repeat constructor; cbn; lia|]. split; [exact radius_no_kind|]. split; [repeat constructor; cbn; lia|vm_compute; reflexivity].
Qed.
Example C71_documented_dimensions_accepted_ex : no_kind [marker_of "AcDbDimension"; mk_pair 70 (VShort 4)] /\
  Forall (fun p => typed p /\ ((exists w x, In w (common_rows ++ dimension_rows) /\ p_code p = rw_code w /\ understood (rw_means w) (p_value p) = Some x) \/ p_code p = 70 \/ p_code p = 100)) [marker_of "AcDbDimension"; mk_pair 70 (VShort 4)] /\
  Forall (fun p => typed p /\ ((exists w x, In w (common_rows ++ place 15 "definition_point_2" ++ [real 40 "leader_length" 0]) /\ p_code p = rw_code w /\ understood (rw_means w) (p_value p) = Some x) \/ p_code p = 70 \/ p_code p = 100)) [mk_pair 40 (VDouble one)].
Proof.
  split; [|split].
  - repeat apply Forall_cons; try apply Forall_nil; intros m kind rows Hin E; repeat (destruct Hin as [Hin|Hin]; [injection Hin as <- <- <-; discriminate E|]); destruct Hin.
  - constructor; [|constructor; [|constructor]]; (split; [|right; cbn; lia]); [exists 100, 102|exists 60, 79]; (split; [cbn; tauto|cbn; lia]).
  - constructor; [|constructor]. split; [exists 10, 59; split; [cbn; tauto|cbn; lia]|]. left. exists (real 40 "leader_length" 0), (FF64 one). split; [apply in_or_app; right; cbn; tauto|split; reflexivity].
Qed.

(** A dimension without the marker of a kind leaves no trace: reading goes on as if it were not there. *)
Theorem C71_unannounced_dimensions_skipped ps nx rest x : plain ps -> no_kind ps -> p_code nx = 0 -> read_entity (Ok dimension_start :: map Ok ps ++ Ok nx :: rest) = Ok x -> read_entity (Ok nx :: rest) = Ok x.
Proof. exact (dimension_dropped ps nx rest x). Qed.
Print Assumptions C71_unannounced_dimensions_skipped.
Example C71_unannounced_dimensions_skipped_ex : plain radius_base /\ no_kind radius_base /\
  match read_entity (Ok dimension_start :: map Ok radius_base ++ [Ok (mk_pair 0 (VStr (str "POINT"))); Ok (mk_pair 10 (VDouble one)); Ok the_end]) with
  | Ok (Some x, r) => (kind_of x, snd x "location.x", length r)
  | _ => ("", FInt 0, O)
  end = ("ModelPoint", FF64 one, 1%nat).
Proof. split; [repeat constructor; cbn; lia|]. split; [exact radius_no_kind|vm_compute; reflexivity]. Qed.
(** The reference has a sixth kind, the angular dimension between two lines; such a dimension is lost. *)
Definition angle_pairs : list pair :=
  [mk_pair 8 (VStr (str "A")); marker_of "AcDbDimension"; mk_pair 70 (VShort 2); mk_pair 10 (VDouble one); marker_of "AcDb2LineAngularDimension"; mk_pair 13 (VDouble one); mk_pair 14 (VDouble one); mk_pair 15 (VDouble one); mk_pair 16 (VDouble one)].
Theorem C71_two_line_angular_refuted : exists ps, plain ps /\ In (marker_of "AcDb2LineAngularDimension") ps /\ last_under 70 ps = Some (VShort 2) /\
  read_entity (Ok dimension_start :: map Ok ps ++ [Ok the_end]) = Ok (None, [Ok the_end]).
Proof. exists angle_pairs. split; [repeat constructor; cbn; lia|]. split; [cbn; tauto|]. split; [reflexivity|vm_compute; reflexivity]. Qed.
Print Assumptions C71_two_line_angular_refuted.

(** What is written from R2000 on: before the marker of the kind the common fields, behind it the fields of the kind, each unless it has its default. *)
Theorem C71_writing_dimensions m kind rows v e ps : In (m, kind, rows) dimension_kinds -> entity_type (en_specific e) = kind -> version_leb R2000 v = true ->
  as_list (entity_store e "common.extension_data_groups") = [] -> as_list (entity_store e "common.x_data") = [] -> FileModel.write_entity v true e = Ok ps ->
  exists base own, ps = dimension_start :: base ++ marker_of m :: own /\ no_kind base /\ word_written base (entity_store e) /\
    (forall w, In w (common_rows ++ dimension_rows) -> version_leb (rw_since w) v = true -> pairs_follow base (entity_store e) w) /\
    (forall w, In w rows -> version_leb (rw_since w) v = true -> pairs_follow own (entity_store e) w).
Proof. intros H K V G1 G2 W. refine (dimension_pairs_follow m kind rows v e ps H K V _ W). intros s [<-|[<-|[]]]; assumption. Qed.
Print Assumptions C71_writing_dimensions.
Definition a_radius : entity :=
  mk_entity 47 (str "A") (str "BYLAYER") (EOther "RadialDimension")
    (("leader_length", FF64 one) :: ("dimension_base.dimension_type", FInt 4) :: ("dimension_base.is_ordinate_x_type", FBool true) :: ("dimension_base.dimension_style_name", FStr (str "ISO")) :: sp_defaults (it_spec ent_radial_dimension)).
Example C71_writing_dimensions_ex : as_list (entity_store a_radius "common.extension_data_groups") = [] /\ as_list (entity_store a_radius "common.x_data") = [] /\
  match FileModel.write_entity R2000 true a_radius with
  | Ok ps => map (fun c => map p_value (filter (fun p => p_code p =? c) ps)) [0; 8; 70; 3; 40; 100]
  | _ => []
  end = [[VStr (str "DIMENSION")]; [VStr (str "A")]; [VShort 68]; [VStr (str "ISO")]; [VDouble one]; [VStr (str "AcDbEntity"); VStr (str "AcDbDimension"); VStr (str "AcDbRadialDimension")]].
Proof. split; [|split]; vm_compute; reflexivity. Qed.
