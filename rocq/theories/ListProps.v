(** Repeated group codes are lists, in the order of the pairs (C70). *)
From Verif Require Import Base F64Model CodePairModel CodePairSpec VersionModel StreamModel SpecModel SpecSpec SpecCheck SpecProofs DrawingModel DocSpec FileModel EntityData TableData ObjectData DocProofs ListSpec ListProofs.
Open Scope string_scope.
Open Scope list_scope.
Open Scope Z_scope.
Set Default Goal Selector "!".

(** Reading. Whatever else is among the pairs, and however the pairs of different codes are mixed, the field is the list of the values under its code;
    for points the k-th pairs of the codes are the coordinates of the k-th point. Missing: the types of the reference that ListSpec.v does not list. *)
Theorem C70_reading_entity_lists_partial ty kind rows ps nx rest o r : In (ty, kind, rows) entity_lists -> plain ps -> p_code nx = 0 ->
  read_entity (Ok (mk_pair 0 (VStr (str ty))) :: map Ok ps ++ Ok nx :: rest) = Ok (o, r) ->
  r = Ok nx :: rest /\ exists x, o = Some x /\ kind_of x = kind /\ forall w, In w rows -> list_follows ps (snd x) w.
Proof. exact (entity_list_follows ty kind rows ps nx rest o r). Qed.
Print Assumptions C70_reading_entity_lists_partial.
Theorem C70_reading_object_lists_partial ty kind rows t ps nx rest o r : In (ty, kind, rows) object_lists -> In t objects -> sp_type (it_spec t) = str ty -> plain ps -> p_code nx = 0 ->
  read_item (it_spec t) (map Ok ps ++ Ok nx :: rest) = Ok (o, r) -> sp_name (it_spec t) = kind /\ r = Ok nx :: rest /\ exists st, o = Some st /\ forall w, In w rows -> list_follows ps st w.
Proof. exact (object_list_follows ty kind rows t ps nx rest o r). Qed.
Print Assumptions C70_reading_object_lists_partial.
Theorem C70_reading_table_lists_partial k ty rows ps nx rest o r : In (ty, rows) table_lists -> table_type k = str ty -> plain ps -> p_code nx = 0 ->
  read_item (it_spec (table_spec k)) (map Ok ps ++ Ok nx :: rest) = Ok (o, r) -> r = Ok nx :: rest /\ exists st, o = Some st /\ forall w, In w rows -> list_follows ps st w.
Proof. exact (table_list_follows k ty rows ps nx rest o r). Qed.
Print Assumptions C70_reading_table_lists_partial.

(** Writing, from R2000 (or the version that has the type) on: the pairs under the codes are the elements of the field, in their order. *)
Theorem C70_writing_entity_lists_partial ty kind rows v e ps : In (ty, kind, rows) entity_lists -> entity_type (en_specific e) = kind -> version_leb (list_since ty) v = true ->
  as_list (entity_store e "common.extension_data_groups") = [] -> as_list (entity_store e "common.x_data") = [] -> FileModel.write_entity v true e = Ok ps ->
  exists own, ps = mk_pair 0 (VStr (str ty)) :: own /\ forall w, In w rows -> elsewhere ty w = false -> pairs_list own (entity_store e) w.
Proof. intros H K V G1 G2 W. refine (entity_pairs_list ty kind rows v e ps H K V _ W). intros s [<-|[<-|[]]]; assumption. Qed.
Print Assumptions C70_writing_entity_lists_partial.
Theorem C70_writing_object_lists_partial ty kind rows t v st ps : In (ty, kind, rows) object_lists -> In t objects -> sp_type (it_spec t) = str ty -> version_leb (list_since ty) v = true ->
  as_list (st "common.extension_data_groups") = [] -> as_list (st "common.x_data") = [] -> write_typed t v true st (Ok []) = Ok ps ->
  exists own, ps = mk_pair 0 (VStr (str ty)) :: own /\ forall w, In w rows -> elsewhere ty w = false -> pairs_list own st w.
Proof. intros H Ht E V G1 G2 W. refine (object_pairs_list ty kind rows t v st ps H Ht E V _ W). intros s [<-|[<-|[]]]; assumption. Qed.
Print Assumptions C70_writing_object_lists_partial.
Theorem C70_writing_table_lists_partial k ty rows v x ps : In (ty, rows) table_lists -> table_type k = str ty -> version_leb R2000 v = true ->
  as_list (titem_store x "extension_data_groups") = [] -> as_list (titem_store x "x_data") = [] -> write_titem k v true x = Ok ps ->
  exists own, ps = mk_pair 0 (VStr (str ty)) :: own /\ forall w, In w rows -> pairs_list own (titem_store x) w.
Proof. intros H E V G1 G2 W. refine (table_pairs_list k ty rows v x ps H E V _ W). intros s [<-|[<-|[]]]; assumption. Qed.
Print Assumptions C70_writing_table_lists_partial.

(** A spline whose coordinates come code by code rather than point by point, with the knots on both sides of them. *)
Definition two : N := 0x4000000000000000.
Definition three : N := 0x4008000000000000.
Definition spline_pairs : list pair :=
  [mk_pair 8 (VStr (str "A")); mk_pair 40 (VDouble three); mk_pair 10 (VDouble one); mk_pair 10 (VDouble two); mk_pair 20 (VDouble two); mk_pair 30 (VDouble 0); mk_pair 40 (VDouble one); mk_pair 20 (VDouble three); mk_pair 30 (VDouble one)].
Definition next_item : pair := mk_pair 0 (VStr (str "ENDSEC")).
Example C70_reading_case : plain spline_pairs /\ coordinates 10 20 (Some 30) spline_pairs [(one, two, 0%N); (two, three, one)] /\
  match read_entity (Ok (mk_pair 0 (VStr (str "SPLINE"))) :: map Ok spline_pairs ++ [Ok next_item]) with
  | Ok (Some x, r) => (kind_of x, map (snd x) ["knot_values"; "weight_values"; "control_points"; "fit_points"], length r)
  | _ => ("", [], O)
  end = ("Spline", [FList [FF64 three; FF64 one]; FList []; FList [FList [FF64 one; FF64 two; FF64 0]; FList [FF64 two; FF64 three; FF64 one]]; FList []], 1%nat) /\
  match read_item (it_spec obj_group) (map Ok [mk_pair 340 (VStr (str "2F")); mk_pair 300 (VStr (str "walls")); mk_pair 340 (VStr (str "1A"))] ++ [Ok next_item]) with
  | Ok (Some st, _) => st "__entities_handle" | _ => FInt 0
  end = FList [FHandle 0x2F; FHandle 0x1A] /\
  match read_item (it_spec (table_spec TLineType)) (map Ok [mk_pair 49 (VDouble three); mk_pair 74 (VShort 2); mk_pair 49 (VDouble one); mk_pair 2 (VStr (str "DASHED"))] ++ [Ok next_item]) with
  | Ok (Some st, _) => map st ["dash_dot_space_lengths"; "complex_line_type_element_types"] | _ => []
  end = [FList [FF64 three; FF64 one]; FList [FInt 2]] /\ sp_type (it_spec obj_group) = str "GROUP" /\ table_type TLineType = str "LTYPE".
Proof. split; [repeat constructor; cbn; lia|]. split; [repeat split|]. repeat split; vm_compute; reflexivity. Qed.
Definition a_spline : entity :=
  mk_entity 47 (str "A") (str "BYLAYER") (EOther "Spline") (("knot_values", FList [FF64 three; FF64 one]) :: ("control_points", FList (map point_value [(one, two, 0%N); (two, three, one)])) :: sp_defaults (it_spec ent_spline)).
Example C70_writing_case : as_list (entity_store a_spline "common.extension_data_groups") = [] /\ as_list (entity_store a_spline "common.x_data") = [] /\
  match FileModel.write_entity R2010 true a_spline with
  | Ok (z :: own) => (p_value z, map (fun c => under c own) [40; 10; 20; 30])
  | _ => (VShort 0, [])
  end = (VStr (str "SPLINE"), [[VDouble three; VDouble one]; [VDouble one; VDouble two]; [VDouble two; VDouble three]; [VDouble 0; VDouble one]]).
Proof. split; [|split]; vm_compute; reflexivity. Qed.

(** Lists that are written under other codes than they are read from, or among other values: the points of multi-lines and underlays, id buffers and section managers. *)
Definition all_lists : list (string * string * list lrow) := entity_lists ++ object_lists.
Definition sample_list (r : lrow) : fval := match lr_shape r with Each _ _ => FList [FHandle 1] | Points _ _ _ => FList (map point_value [(one, two, 0%N)]) end.
Definition list_sample (sp : spec) (r : lrow) : store := upd (upd (default_of sp) "common.__owner_handle" (FHandle 2)) (lr_field r) (sample_list r).
Definition elsewhere_shown (x : string * string) : bool :=
  existsb (fun e => let '(ty, _, rows) := e in if negb (String.eqb ty (fst x)) then false else
    existsb (fun r => if negb (String.eqb (lr_field r) (snd x)) then false else
      existsb (fun t => if negb (seqb (sp_type (it_spec t)) (str ty)) then false else
        match write_item (it_spec t) R2010 true (list_sample (it_spec t) r) with
        | Ok ps => match lr_shape r with
                   | Each c Hex => (c =? 330) && negb (length (under c ps) =? 1)%nat
                   | Each _ _ => false
                   | Points _ y _ => negb (length (under y ps) =? 1)%nat
                   end
        | Err _ => false
        end) (entities ++ objects)) rows) all_lists.
Lemma all_elsewhere : forallb elsewhere_shown written_elsewhere = true.
Proof. vm_compute. reflexivity. Qed.
Theorem C70_written_elsewhere_refuted : forall ty f, In (ty, f) written_elsewhere -> exists kind rows r t st ps, In (ty, kind, rows) (entity_lists ++ object_lists) /\ In r rows /\ lr_field r = f /\
  In t (entities ++ objects) /\ sp_type (it_spec t) = str ty /\ write_item (it_spec t) R2010 true st = Ok ps /\ ~ pairs_list ps st r.
Proof.
  intros ty f H. pose proof (proj1 (forallb_forall _ _) all_elsewhere _ H) as C. unfold elsewhere_shown in C. cbn [fst snd] in C. apply existsb_exists in C as ([[ty' kind] rows] & I1 & C). destruct (String.eqb ty' ty) eqn:E1; [|discriminate C]. cbn [negb] in C. apply String.eqb_eq in E1 as ->.
  apply existsb_exists in C as (r & I2 & C). destruct (String.eqb (lr_field r) f) eqn:E2; [|discriminate C]. cbn [negb] in C. apply String.eqb_eq in E2. apply existsb_exists in C as (t & I3 & C). destruct (seqb (sp_type (it_spec t)) (str ty)) eqn:E3; [|discriminate C]. cbn [negb] in C. apply seqb_eq in E3.
  destruct (write_item (it_spec t) R2010 true (list_sample (it_spec t) r)) as [ps|] eqn:W; [|discriminate C]. exists kind, rows, r, t, (list_sample (it_spec t) r), ps. do 6 (split; [assumption|]).
  assert (list_sample (it_spec t) r (lr_field r) = sample_list r) as S by (unfold list_sample, upd; rewrite String.eqb_refl; reflexivity).
  unfold pairs_list. rewrite S. unfold sample_list. destruct (lr_shape r) as [c m|x y z].
  - destruct m; try discriminate C. apply andb_true_iff in C as [C0 C]. assert (c = 330) as -> by lia. intros K. assert (F : Forall2 (fun v x => understood Hex v = Some x) (under 330 ps) [FHandle 1]).
    { apply K; [reflexivity|]. constructor; [|constructor]. exists (VStr (str "1")). split; [exists 320, 369; split; [cbn; tauto|cbn; lia]|]. split; [|reflexivity]. cbn. repeat constructor. }
    inversion F as [|? ? ? ? _ F1 E4]; subst. inversion F1. subst. rewrite <- E4 in C. discriminate C.
  - intros K. destruct (K [(one, two, 0%N)] eq_refl) as (_ & Y & _); [destruct z; [exact I|repeat constructor]|]. rewrite Y in C. discriminate C.
Qed.
Print Assumptions C70_written_elsewhere_refuted.
(** The clipping vertices of a wipeout are not read. *)
Theorem C70_wipeout_refuted : exists ps x, plain ps /\ coordinates 14 24 None ps [(one, two, 0%N)] /\
  read_entity (Ok (mk_pair 0 (VStr (str "WIPEOUT"))) :: map Ok ps ++ [Ok next_item]) = Ok (Some x, [Ok next_item]) /\ snd x "clipping_vertices" = FList [].
Proof.
  set (ps := [mk_pair 14 (VDouble one); mk_pair 24 (VDouble two)]).
  assert (C : match read_entity (Ok (mk_pair 0 (VStr (str "WIPEOUT"))) :: map Ok ps ++ [Ok next_item]) with
    | Ok (Some x, [Ok p]) => match snd x "clipping_vertices" with FList [] => (p_code p =? 0) && match p_value p with VStr s => seqb s (str "ENDSEC") | _ => false end | _ => false end | _ => false end = true) by (vm_compute; reflexivity).
  destruct (read_entity _) as [[[x|] [|[p|] []]]|] eqn:R in C; try discriminate C. exists ps, x. split; [repeat constructor; cbn; lia|]. split; [repeat split; repeat constructor|].
  destruct (snd x "clipping_vertices") as [| | | | | | | |[|]]; try discriminate C. apply andb_true_iff in C as [C1 C2]. destruct p as [c v]. cbn [p_code p_value] in *. destruct v as [| | | | |s|]; try discriminate C2. apply seqb_eq in C2 as ->. assert (c = 0) as -> by lia. split; [exact R|reflexivity].
Qed.
Print Assumptions C70_wipeout_refuted.
