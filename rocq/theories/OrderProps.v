(** The order of the pairs of an item, and pairs it has no meaning for (C65, C66). *)
From Verif Require Import Base TextModel TextProofs VersionModel CodePairModel CodePairSpec CodePairProofs SpecModel SpecSpec DrawingModel FileModel EntityData ObjectData TableData LoadProofs SaveModel SaveSpec SaveProofs HeaderProps FileWitness OrderSpec OrderProofs LoadSpec SectionsSpec SectionsProofs SectionsFileProofs OrderFileProofs SectionsProps.
Open Scope string_scope.
Open Scope list_scope.
Open Scope Z_scope.
Set Default Goal Selector "!".
Local Notation idle := (fun it : feed => it).

(** * C65 *)
(** An entity reads the same however its pairs are arranged, as long as pairs with the same code keep their order. *)
Theorem C65_entities_any_order : forall ty ps qs x, ~ In ty ordered_entities -> ungrouped ps -> same_per_code ps qs ->
  read_entity (map Ok (pairs_of (ty, ps)) ++ [Ok (item "ENDSEC")]) = Ok (Some x, [Ok (item "ENDSEC")]) ->
  exists y, (forall nx rest, p_code nx = 0 -> read_entity (map Ok (pairs_of (ty, qs)) ++ Ok nx :: rest) = Ok (Some y, Ok nx :: rest)) /\ fst x = fst y /\ forall s, snd x s = snd y s.
Proof.
  intros ty ps qs x N U S R. destruct (own_entity_of _ _ _ U R) as (N1 & N2 & E). destruct (same_own ty ps qs x N U S E) as (y & E' & Sa & Sb). exists y. split; [|split; assumption].
  intros nx rest Z. exact (entity_own _ _ nx rest y Z (same_ungrouped _ _ S U) N1 N2 E').
Qed.
Print Assumptions C65_entities_any_order.
Definition a_line : list pair := [mk_pair 8 (VStr (str "A")); mk_pair 10 (VDouble 1); mk_pair 11 (VDouble 2); mk_pair 10 (VDouble 3); mk_pair 999 (VStr (str "x")); mk_pair 62 (VShort 3)].
Definition a_line' : list pair := [mk_pair 10 (VDouble 1); mk_pair 62 (VShort 3); mk_pair 10 (VDouble 3); mk_pair 8 (VStr (str "A")); mk_pair 999 (VStr (str "x")); mk_pair 11 (VDouble 2)].
Lemma line_same : same_per_code a_line a_line'.
Proof. intros c. unfold a_line, a_line'. cbn [filter p_code]. destruct (8 =? c) eqn:E1, (10 =? c) eqn:E2, (11 =? c) eqn:E3, (999 =? c) eqn:E4, (62 =? c) eqn:E5; try lia; reflexivity. Qed.
Definition ungroupedb (ps : list pair) : bool := forallb (fun p => negb ((p_code p =? 0) || (p_code p =? 102) || (p_code p =? 1001))) ps.
Lemma ungroupedb_sound ps : ungroupedb ps = true -> ungrouped ps.
Proof. intros H. unfold ungrouped. apply Forall_forall. intros p I. unfold ungroupedb in H. rewrite forallb_forall in H. specialize (H p I). apply negb_true_iff in H. lia. Qed.
Definition readableb (a : string * list pair) : bool := match read_entity (map Ok (pairs_of a) ++ [Ok (item "ENDSEC")]) with Ok (Some _, [Ok p]) => (p_code p =? 0) && match p_value p with VStr s => seqb s (str "ENDSEC") | _ => false end | _ => false end.
Lemma readableb_sound a : readableb a = true -> readable a.
Proof.
  unfold readableb, readable. destruct (read_entity _) as [[[x|] [|[[c v]|] [|]]]|]; intros H; try discriminate H. cbn [p_code p_value] in H. destruct v as [| | | | |s|]; rewrite ?andb_false_r in H; try discriminate H. apply andb_true_iff in H as [H1 H2]. apply seqb_eq in H2. subst s. exists x. assert (E : c = 0) by lia. rewrite E. reflexivity.
Qed.
Example C65_entity_case : ~ In "LINE" ordered_entities /\ ungrouped a_line /\ same_per_code a_line a_line' /\ a_line <> a_line' /\ readable ("LINE", a_line).
Proof.
  split; [cbn; intuition discriminate|]. split; [apply ungroupedb_sound; reflexivity|]. split; [exact line_same|]. split; [discriminate|]. apply readableb_sound. vm_compute. reflexivity.
Qed.

(** The types left out do depend on the order. *)
Definition field_read (ty : string) (ps : list pair) (f : string) : option fval := match read_entity (map Ok (pairs_of (ty, ps)) ++ [Ok (item "ENDSEC")]) with Ok (Some x, _) => Some (snd x f) | _ => None end.
Theorem C65_ordered_entities_refuted : forall ty, In ty ordered_entities -> exists ps qs f v w, ungrouped ps /\ same_per_code ps qs /\ field_read ty ps f = Some v /\ field_read ty qs f = Some w /\ v <> w.
Proof.
  intros ty I. cbn [ordered_entities In] in I. destruct I as [<- | [<- | [<- | [<- | [<- | []]]]]].
  - exists [mk_pair 100 (VStr (str "AcDbXrecord")); mk_pair 2 (VStr (str "T"))], [mk_pair 2 (VStr (str "T")); mk_pair 100 (VStr (str "AcDbXrecord"))], "attribute_tag". eexists. eexists. split; [apply ungroupedb_sound; reflexivity|].
    split; [intros c; cbn [filter p_code]; destruct (100 =? c) eqn:E1, (2 =? c) eqn:E2; try lia; reflexivity|]. split; [vm_compute; reflexivity|]. split; [vm_compute; reflexivity|discriminate].
  - exists [mk_pair 100 (VStr (str "AcDbXrecord")); mk_pair 2 (VStr (str "T"))], [mk_pair 2 (VStr (str "T")); mk_pair 100 (VStr (str "AcDbXrecord"))], "text_tag". eexists. eexists. split; [apply ungroupedb_sound; reflexivity|].
    split; [intros c; cbn [filter p_code]; destruct (100 =? c) eqn:E1, (2 =? c) eqn:E2; try lia; reflexivity|]. split; [vm_compute; reflexivity|]. split; [vm_compute; reflexivity|discriminate].
  - exists [mk_pair 100 (VStr (str "AcDbOrdinateDimension")); mk_pair 1 (VStr (str "T"))], [mk_pair 1 (VStr (str "T")); mk_pair 100 (VStr (str "AcDbOrdinateDimension"))], "dimension_base.text". eexists. eexists. split; [apply ungroupedb_sound; reflexivity|].
    split; [intros c; cbn [filter p_code]; destruct (100 =? c) eqn:E1, (1 =? c) eqn:E2; try lia; reflexivity|]. split; [vm_compute; reflexivity|]. split; [vm_compute; reflexivity|discriminate].
  - exists [mk_pair 10 (VDouble 1); mk_pair 40 (VDouble 2); mk_pair 10 (VDouble 3)], [mk_pair 10 (VDouble 1); mk_pair 10 (VDouble 3); mk_pair 40 (VDouble 2)], "vertices". eexists. eexists. split; [apply ungroupedb_sound; reflexivity|].
    split; [intros c; cbn [filter p_code]; destruct (10 =? c) eqn:E1, (40 =? c) eqn:E2; try lia; reflexivity|]. split; [vm_compute; reflexivity|]. split; [vm_compute; reflexivity|discriminate].
  - exists [mk_pair 75 (VShort 1); mk_pair 50 (VDouble 1)], [mk_pair 50 (VDouble 1); mk_pair 75 (VShort 1)], "rotation_angle". eexists. eexists. split; [apply ungroupedb_sound; reflexivity|].
    split; [intros c; cbn [filter p_code]; destruct (75 =? c) eqn:E1, (50 =? c) eqn:E2; try lia; reflexivity|]. split; [vm_compute; reflexivity|]. split; [vm_compute; reflexivity|discriminate].
Qed.
Print Assumptions C65_ordered_entities_refuted.

(** Objects read the same, or fail to be read, in any such order. *)
Theorem C65_objects_any_order : forall ty cs ps qs nx rest, In (ty, cs) object_codes -> ~ In ty ordered_objects -> ungrouped ps -> same_per_code ps qs -> p_code nx = 0 ->
  let read ps := read_object (map Ok (pairs_of (ty, ps)) ++ Ok nx :: rest) in
  (exists x, read ps = Ok x /\ read qs = Ok x) \/ (exists e e', read ps = Err e /\ read qs = Err e').
Proof.
  intros ty cs ps qs nx rest I N U S Z read. pose proof (object_same ty cs ps qs nx rest I N U S Z) as A. fold (read ps) in A. fold (read qs) in A. destruct (read ps) as [x|e], (read qs) as [y|e']; cbn [agree] in A; try contradiction A.
  - left. exists x. subst y. split; reflexivity.
  - right. exists e, e'. split; reflexivity.
Qed.
Print Assumptions C65_objects_any_order.
Example C65_object_case : let ps := [mk_pair 70 (VShort 1); mk_pair 300 (VStr (str "g")); mk_pair 340 (VStr (str "1F")); mk_pair 340 (VStr (str "2F"))] in let qs := [mk_pair 340 (VStr (str "1F")); mk_pair 300 (VStr (str "g")); mk_pair 340 (VStr (str "2F")); mk_pair 70 (VShort 1)] in
  In ("GROUP", [70; 71; 300; 340]) object_codes /\ ~ In "GROUP" ordered_objects /\ ungrouped ps /\ same_per_code ps qs /\
  match read_object (map Ok (pairs_of ("GROUP", ps)) ++ [Ok (item "ENDSEC")]) with Ok (Some _, _) => true | _ => false end = true.
Proof.
  cbv zeta. split; [cbn; tauto|]. split; [cbn; intuition discriminate|]. split; [apply ungroupedb_sound; reflexivity|]. split; [|vm_compute; reflexivity].
  intros c. cbn [filter p_code]. destruct (70 =? c) eqn:E1, (300 =? c) eqn:E2, (340 =? c) eqn:E3; try lia; reflexivity.
Qed.
Definition object_field (ty : string) (ps : list pair) (f : string) : option fval :=
  match read_object (map Ok (pairs_of (ty, ps)) ++ [Ok (item "ENDSEC")]) with Ok (Some o, _) => option_map snd (find (fun x => String.eqb (fst x) f) (ob_fields o)) | _ => None end.
Theorem C65_ordered_objects_refuted : forall ty, In ty ordered_objects -> exists ps qs f v w, ungrouped ps /\ same_per_code ps qs /\ object_field ty ps f = Some v /\ object_field ty qs f = Some w /\ v <> w.
Proof.
  intros ty I. cbn [ordered_objects In] in I. destruct I as [<- | [<- | [<- | [<- | []]]]].
  - exists [mk_pair 100 (VStr (str "AcDbLayout")); mk_pair 1 (VStr (str "T"))], [mk_pair 1 (VStr (str "T")); mk_pair 100 (VStr (str "AcDbLayout"))], "layout_name". eexists. eexists. split; [apply ungroupedb_sound; reflexivity|].
    split; [intros c; cbn [filter p_code]; destruct (100 =? c) eqn:E1, (1 =? c) eqn:E2; try lia; reflexivity|]. split; [vm_compute; reflexivity|]. split; [vm_compute; reflexivity|discriminate].
  - exists [mk_pair 3 (VStr (str "T")); mk_pair 4 (VStr (str "U")); mk_pair 3 (VStr (str "V"))], [mk_pair 3 (VStr (str "T")); mk_pair 3 (VStr (str "V")); mk_pair 4 (VStr (str "U"))], "normal_map_file_name". eexists. eexists. split; [apply ungroupedb_sound; reflexivity|].
    split; [intros c; cbn [filter p_code]; destruct (3 =? c) eqn:E1, (4 =? c) eqn:E2; try lia; reflexivity|]. split; [vm_compute; reflexivity|]. split; [vm_compute; reflexivity|discriminate].
  - exists [mk_pair 71 (VShort 1); mk_pair 62 (VShort 7)], [mk_pair 62 (VShort 7); mk_pair 71 (VShort 1)], "fill_color". eexists. eexists. split; [apply ungroupedb_sound; reflexivity|].
    split; [intros c; cbn [filter p_code]; destruct (71 =? c) eqn:E1, (62 =? c) eqn:E2; try lia; reflexivity|]. split; [vm_compute; reflexivity|]. split; [vm_compute; reflexivity|discriminate].
  - exists [mk_pair 331 (VStr (str "A")); mk_pair 5 (VStr (str "B"))], [mk_pair 5 (VStr (str "B")); mk_pair 331 (VStr (str "A"))], "__sort_items_handle". eexists. eexists. split; [apply ungroupedb_sound; reflexivity|].
    split; [intros c; cbn [filter p_code]; destruct (331 =? c) eqn:E1, (5 =? c) eqn:E2; try lia; reflexivity|]. split; [vm_compute; reflexivity|]. split; [vm_compute; reflexivity|discriminate].
Qed.
Print Assumptions C65_ordered_objects_refuted.

(** Table items too, apart from a few fields that each have two codes. *)
Theorem C65_table_items_any_order : forall k ty ps qs nx rest, table_type k = str ty -> ungrouped ps -> same_per_code ps qs -> p_code nx = 0 ->
  let read ps := read_item (it_spec (table_spec k)) (map Ok ps ++ Ok nx :: rest) in
  (exists x y, read ps = Ok (Some x, Ok nx :: rest) /\ read qs = Ok (Some y, Ok nx :: rest) /\ forall s, ~ In s (shared_fields ty) -> x s = y s) \/ (exists e e', read ps = Err e /\ read qs = Err e').
Proof.
  intros k ty ps qs nx rest E U S Z read. pose proof (table_same k ty ps qs nx rest E U S Z) as A. fold (read ps) in A. fold (read qs) in A. destruct (read ps) as [x|e], (read qs) as [y|e']; cbn [agree] in A; try contradiction A.
  - left. destruct A as (st & st' & -> & -> & A). exists st, st'. split; [reflexivity|]. split; [reflexivity|exact A].
  - right. exists e, e'. split; reflexivity.
Qed.
Print Assumptions C65_table_items_any_order.
Example C65_table_item_case : let ps := [mk_pair 2 (VStr (str "L")); mk_pair 62 (VShort 3); mk_pair 6 (VStr (str "dots"))] in let qs := [mk_pair 6 (VStr (str "dots")); mk_pair 2 (VStr (str "L")); mk_pair 62 (VShort 3)] in
  table_type TLayer = str "LAYER" /\ ungrouped ps /\ same_per_code ps qs /\ shared_fields "LAYER" = [] /\ match read_item (it_spec (table_spec TLayer)) (map Ok ps ++ [Ok (item "ENDTAB")]) with Ok (Some st, _) => option_map (fun x => st x) (Some "line_type_name") | _ => None end = Some (FStr (str "dots")).
Proof.
  cbv zeta. split; [reflexivity|]. split; [apply ungroupedb_sound; reflexivity|]. split; [|split; [reflexivity|vm_compute; reflexivity]]. intros c. cbn [filter p_code]. destruct (2 =? c) eqn:E1, (62 =? c) eqn:E2, (6 =? c) eqn:E3; try lia; reflexivity.
Qed.
(** Of two codes for one field the last one read wins. *)
Definition item_field (k : tkind) (ps : list pair) (f : string) : option fval := match read_item (it_spec (table_spec k)) (map Ok ps ++ [Ok (item "ENDTAB")]) with Ok (Some st, _) => Some (st f) | _ => None end.
Theorem C65_shared_codes_refuted : exists k ty ps qs f v w, table_type k = str ty /\ In f (shared_fields ty) /\ ungrouped ps /\ same_per_code ps qs /\ item_field k ps f = Some v /\ item_field k qs f = Some w /\ v <> w.
Proof.
  exists TDimStyle, "DIMSTYLE", [mk_pair 6 (VStr (str "T")); mk_pair 343 (VStr (str "A"))], [mk_pair 343 (VStr (str "A")); mk_pair 6 (VStr (str "T"))], "first_arrow_block_name". eexists. eexists. split; [reflexivity|]. split; [cbn; tauto|]. split; [apply ungroupedb_sound; reflexivity|].
  split; [intros c; cbn [filter p_code]; destruct (6 =? c) eqn:E1, (343 =? c) eqn:E2; try lia; reflexivity|]. split; [vm_compute; reflexivity|]. split; [vm_compute; reflexivity|discriminate].
Qed.
Print Assumptions C65_shared_codes_refuted.

(** In a file: arranging the pairs of its entities otherwise gives the same drawing, whatever sections stand around them. *)
Definition reordered (a b : string * list pair) : Prop := fst a = fst b /\ ~ In (fst a) ordered_entities /\ ungrouped (snd a) /\ same_per_code (snd a) (snd b) /\ readable a.
Definition with_entities (h before behind : list sect) (l : list (string * list pair)) : list sect := h ++ before ++ (str "ENTITIES", flat_map pairs_of l) :: behind.
Lemma reordered_alike l l' : Forall2 reordered l l' -> Forall2 alike (map pairs_of l) (map pairs_of l').
Proof.
  induction 1 as [|[ty ps] [ty' qs] l l' (E & N & U & S & R) _ IH]; [constructor|]. cbn [fst snd map] in *. subst ty'. constructor; [|exact IH]. apply alike_own; [exact U|exact (same_ungrouped _ _ S U)|exact R|]. intros x. exact (same_own ty ps qs x N U S).
Qed.
Lemma files_with env h before behind l l' d0 : header_part h -> load idle env (map Ok (file_of_sections h)) = Ok d0 -> Forall (loads_alone env h) (before ++ behind) -> Forall2 alike (map pairs_of l) (map pairs_of l') ->
  exists d, load idle env (map Ok (file_of_sections (with_entities h before behind l))) = Ok d /\ load idle env (map Ok (file_of_sections (with_entities h before behind l'))) = Ok d.
Proof. intros Hh H0 Hs F. unfold with_entities. rewrite !flat_map_concat_map. exact (files_alike env h before behind _ _ d0 Hh H0 Hs F). Qed.
Theorem C65_files_any_order : forall env h before behind l l' d0, header_part h -> load idle env (map Ok (file_of_sections h)) = Ok d0 ->
  Forall (fun s => named "HEADER" s = false /\ closed s /\ exists a, load idle env (map Ok (file_of_sections (h ++ [s]))) = Ok a) (before ++ behind) -> Forall2 reordered l l' ->
  exists d, load idle env (map Ok (file_of_sections (with_entities h before behind l))) = Ok d /\ load idle env (map Ok (file_of_sections (with_entities h before behind l'))) = Ok d.
Proof. intros env h before behind l l' d0 Hh H0 Hs F. exact (files_with env h before behind l l' d0 Hh H0 Hs (reordered_alike _ _ F)). Qed.
Print Assumptions C65_files_any_order.
Example C65_files_case : let l := [("LINE", a_line); ("CIRCLE", [mk_pair 40 (VDouble 5)])] in let l' := [("LINE", a_line'); ("CIRCLE", [mk_pair 40 (VDouble 5)])] in
  Forall2 reordered l l' /\ l <> l' /\ Forall (fun s => named "HEADER" s = false /\ closed s /\ exists a, load idle env0 (map Ok (file_of_sections ([a_header] ++ [s]))) = Ok a) [a_tables; an_entities; an_objects].
Proof.
  cbv zeta. split; [|split; [discriminate|]].
  - destruct C65_entity_case as (N & U & S & _ & R). constructor; [split; [reflexivity|]; split; [exact N|]; split; [exact U|]; split; [exact S|exact R]|]. constructor; [|constructor]. split; [reflexivity|]. split; [cbn; intuition discriminate|]. split; [apply ungroupedb_sound; reflexivity|].
    split; [intros c; reflexivity|]. apply readableb_sound. vm_compute. reflexivity.
  - pose proof (apartb_sound env0 [a_header] [a_tables; an_entities; an_objects] ltac:(vm_compute; reflexivity)) as A. rewrite Forall_map in A. eapply Forall_impl; [|exact A]. cbn [fst snd]. intros s (A1 & A2 & A3). split; [exact A1|]. split; [exact A2|]. eexists. exact A3.
Qed.

(** * C66 *)
(** Pairs whose code the type of the entity has no meaning for can be put in or taken out. *)
Theorem C66_entities_ignore_other_codes : forall ty ps qs x, ungrouped ps -> ungrouped qs -> same_known entity_common entity_codes ty ps qs ->
  read_entity (map Ok (pairs_of (ty, ps)) ++ [Ok (item "ENDSEC")]) = Ok (Some x, [Ok (item "ENDSEC")]) ->
  forall nx rest, p_code nx = 0 -> read_entity (map Ok (pairs_of (ty, qs)) ++ Ok nx :: rest) = Ok (Some x, Ok nx :: rest).
Proof.
  intros ty ps qs x U V S R nx rest Z. destruct (own_entity_of _ _ _ U R) as (N1 & N2 & E). change (own_entity (str ty) ps = Ok (Some x)) in E. rewrite (known_own ty ps qs S) in E. exact (entity_own _ _ nx rest x Z V N1 N2 E).
Qed.
Print Assumptions C66_entities_ignore_other_codes.
Definition padded_line : list pair := mk_pair 100 (VStr (str "AcDbLine")) :: a_line ++ [mk_pair 1 (VStr (str "note")); mk_pair 41 (VDouble 7)].
Example C66_entity_case : ungrouped a_line /\ ungrouped padded_line /\ same_known entity_common entity_codes "LINE" a_line padded_line /\ readable ("LINE", a_line).
Proof. split; [apply ungroupedb_sound; reflexivity|]. split; [apply ungroupedb_sound; reflexivity|]. split; [vm_compute; reflexivity|]. apply readableb_sound. vm_compute. reflexivity. Qed.
Theorem C66_objects_ignore_other_codes : forall ty cs ps qs nx rest, In (ty, cs) object_codes -> ungrouped ps -> ungrouped qs -> same_known object_common object_codes ty ps qs -> p_code nx = 0 ->
  read_object (map Ok (pairs_of (ty, ps)) ++ Ok nx :: rest) = read_object (map Ok (pairs_of (ty, qs)) ++ Ok nx :: rest).
Proof. exact object_known. Qed.
Print Assumptions C66_objects_ignore_other_codes.
Example C66_object_case : same_known object_common object_codes "GROUP" [mk_pair 300 (VStr (str "g"))] [mk_pair 100 (VStr (str "AcDbGroup")); mk_pair 300 (VStr (str "g")); mk_pair 2 (VStr (str "x"))] /\
  object_field "GROUP" [mk_pair 300 (VStr (str "g"))] "description" = Some (FStr (str "g")).
Proof. split; vm_compute; reflexivity. Qed.
Theorem C66_table_items_ignore_other_codes : forall k ty ps qs nx rest, table_type k = str ty -> ungrouped ps -> ungrouped qs -> same_known table_common table_codes ty ps qs -> p_code nx = 0 ->
  read_item (it_spec (table_spec k)) (map Ok ps ++ Ok nx :: rest) = read_item (it_spec (table_spec k)) (map Ok qs ++ Ok nx :: rest).
Proof. exact table_known. Qed.
Print Assumptions C66_table_items_ignore_other_codes.
Example C66_table_item_case : same_known table_common table_codes "LAYER" [mk_pair 2 (VStr (str "L"))] [mk_pair 70 (VShort 4); mk_pair 2 (VStr (str "L"))] /\ item_field TLayer [mk_pair 2 (VStr (str "L"))] "name" = Some (FStr (str "L")).
Proof. split; vm_compute; reflexivity. Qed.

(** In a file the same. *)
Definition padded (a b : string * list pair) : Prop := fst a = fst b /\ ungrouped (snd a) /\ ungrouped (snd b) /\ same_known entity_common entity_codes (fst a) (snd a) (snd b) /\ readable a.
Lemma padded_alike l l' : Forall2 padded l l' -> Forall2 alike (map pairs_of l) (map pairs_of l').
Proof.
  induction 1 as [|[ty ps] [ty' qs] l l' (E & U & V & S & R) _ IH]; [constructor|]. cbn [fst snd map] in *. subst ty'. constructor; [|exact IH]. apply alike_own; [exact U|exact V|exact R|]. intros x H. rewrite (known_own ty ps qs S) in H. exists x. split; [exact H|]. split; [reflexivity|]. intros s. reflexivity.
Qed.
Theorem C66_files_ignore_other_codes : forall env h before behind l l' d0, header_part h -> load idle env (map Ok (file_of_sections h)) = Ok d0 ->
  Forall (fun s => named "HEADER" s = false /\ closed s /\ exists a, load idle env (map Ok (file_of_sections (h ++ [s]))) = Ok a) (before ++ behind) -> Forall2 padded l l' ->
  exists d, load idle env (map Ok (file_of_sections (with_entities h before behind l))) = Ok d /\ load idle env (map Ok (file_of_sections (with_entities h before behind l'))) = Ok d.
Proof. intros env h before behind l l' d0 Hh H0 Hs F. exact (files_with env h before behind l l' d0 Hh H0 Hs (padded_alike _ _ F)). Qed.
Print Assumptions C66_files_ignore_other_codes.
Example C66_files_case : Forall2 padded [("LINE", a_line); ("LINE", [])] [("LINE", padded_line); ("LINE", [mk_pair 1 (VStr [])])].
Proof.
  destruct C66_entity_case as (U & V & S & R). constructor; [split; [reflexivity|]; split; [exact U|]; split; [exact V|]; split; [exact S|exact R]|]. constructor; [|constructor]. split; [reflexivity|]. split; [constructor|]. split; [apply ungroupedb_sound; reflexivity|]. split; [reflexivity|]. apply readableb_sound. vm_compute. reflexivity.
Qed.

(** The same for the bytes of binary and of text files. *)
Lemma binary_loads env enc v m d : Forall (storable_section (binary_storable v)) m -> load_bytes env enc (write_binary (version_leb R13 v) (file_of_sections m)) = Ok d <-> load idle env (map Ok (file_of_sections m)) = Ok d.
Proof.
  intros M. apply storable_file in M; [|apply binary_storableb_sound; destruct v; reflexivity ..]. destruct (file_starts m) as (s & ps & E & Ns). rewrite E in *. apply binary_pairs; [exact Ns| |].
  - eapply Forall_impl; [|exact M]. intros p (H1 & H2 & _). split; assumption.
  - inversion_clear M as [|? ? _ M']. eapply Forall_impl; [|exact M']. intros p (_ & _ & H). exact H.
Qed.
Lemma text_loads env ascii m d : Forall (storable_section text_plain) m -> load_bytes env WINDOWS_1252 (write_text ascii (file_of_sections m)) = Ok d <-> load idle env (map Ok (file_of_sections m)) = Ok d.
Proof.
  intros M. assert (Z : forall s, s = "SECTION" \/ s = "ENDSEC" \/ s = "EOF" -> text_plain (item s)).
  { intros s Hs. destruct (text_storableb_sound R12 (item s)) as (T & (W & _) & N); [destruct Hs as [-> |[-> | ->]]; reflexivity|]. split; [exact T|]. split; [exact W|]. split; [exact N|]. apply simple_plain. destruct Hs as [-> |[-> | ->]]; reflexivity. }
  apply storable_file in M; [|apply Z; tauto ..]. destruct (file_starts m) as (s & ps & E & Ns). rewrite E in *. apply text_pairs. eapply Forall_impl; [|exact M]. apply text_plain_both.
Qed.
Lemma bytes_with (P : pair -> Prop) (loads : list sect -> res drawing) env h before behind l l' d0 :
  (forall m d, Forall (storable_section P) m -> loads m = Ok d <-> load idle env (map Ok (file_of_sections m)) = Ok d) ->
  Forall (storable_section P) (with_entities h before behind l) -> Forall (storable_section P) (with_entities h before behind l') -> header_part h -> loads h = Ok d0 ->
  Forall (fun s => named "HEADER" s = false /\ closed s /\ exists a, loads (h ++ [s]) = Ok a) (before ++ behind) -> Forall2 alike (map pairs_of l) (map pairs_of l') ->
  exists d, loads (with_entities h before behind l) = Ok d /\ loads (with_entities h before behind l') = Ok d.
Proof.
  intros B S S' Hh H0 Hs F. pose proof S as T. unfold with_entities in T. apply Forall_app in T as [Th T]. apply Forall_app in T as [Tb T]. inversion_clear T as [|? ? _ Ta]. apply (B _ _ Th) in H0.
  destruct (files_with env h before behind l l' d0 Hh H0) as (d & L & L'); [|exact F|].
  - assert (Q : Forall (storable_section P) (before ++ behind)) by (apply Forall_app; split; assumption). rewrite Forall_forall in *. intros s I. destruct (Hs s I) as (N & C & a & L). split; [exact N|]. split; [exact C|]. exists a. apply (B _ _); [|exact L].
    apply Forall_app. split; [apply Forall_forall, Th|]. constructor; [exact (Q s I)|constructor].
  - exists d. split; apply B; assumption.
Qed.
Theorem C65_binary_files_any_order : forall env enc v h before behind l l' d0, let loads m := load_bytes env enc (write_binary (version_leb R13 v) (file_of_sections m)) in
  Forall (storable_section (binary_storable v)) (with_entities h before behind l) -> Forall (storable_section (binary_storable v)) (with_entities h before behind l') -> header_part h -> loads h = Ok d0 ->
  Forall (fun s => named "HEADER" s = false /\ closed s /\ exists a, loads (h ++ [s]) = Ok a) (before ++ behind) -> Forall2 reordered l l' ->
  exists d, loads (with_entities h before behind l) = Ok d /\ loads (with_entities h before behind l') = Ok d.
Proof. intros env enc v h before behind l l' d0 loads S S' Hh H0 Hs F. apply (bytes_with (binary_storable v) loads env h before behind l l' d0); try assumption; [|exact (reordered_alike _ _ F)]. intros m d. apply binary_loads. Qed.
Print Assumptions C65_binary_files_any_order.
Theorem C65_text_files_any_order : forall env ascii h before behind l l' d0, let loads m := load_bytes env WINDOWS_1252 (write_text ascii (file_of_sections m)) in
  Forall (storable_section text_plain) (with_entities h before behind l) -> Forall (storable_section text_plain) (with_entities h before behind l') -> header_part h -> loads h = Ok d0 ->
  Forall (fun s => named "HEADER" s = false /\ closed s /\ exists a, loads (h ++ [s]) = Ok a) (before ++ behind) -> Forall2 reordered l l' ->
  exists d, loads (with_entities h before behind l) = Ok d /\ loads (with_entities h before behind l') = Ok d.
Proof. intros env ascii h before behind l l' d0 loads S S' Hh H0 Hs F. apply (bytes_with text_plain loads env h before behind l l' d0); try assumption; [|exact (reordered_alike _ _ F)]. intros m d. apply text_loads. Qed.
Print Assumptions C65_text_files_any_order.
Theorem C66_binary_files_ignore_other_codes : forall env enc v h before behind l l' d0, let loads m := load_bytes env enc (write_binary (version_leb R13 v) (file_of_sections m)) in
  Forall (storable_section (binary_storable v)) (with_entities h before behind l) -> Forall (storable_section (binary_storable v)) (with_entities h before behind l') -> header_part h -> loads h = Ok d0 ->
  Forall (fun s => named "HEADER" s = false /\ closed s /\ exists a, loads (h ++ [s]) = Ok a) (before ++ behind) -> Forall2 padded l l' ->
  exists d, loads (with_entities h before behind l) = Ok d /\ loads (with_entities h before behind l') = Ok d.
Proof. intros env enc v h before behind l l' d0 loads S S' Hh H0 Hs F. apply (bytes_with (binary_storable v) loads env h before behind l l' d0); try assumption; [|exact (padded_alike _ _ F)]. intros m d. apply binary_loads. Qed.
Print Assumptions C66_binary_files_ignore_other_codes.
Theorem C66_text_files_ignore_other_codes : forall env ascii h before behind l l' d0, let loads m := load_bytes env WINDOWS_1252 (write_text ascii (file_of_sections m)) in
  Forall (storable_section text_plain) (with_entities h before behind l) -> Forall (storable_section text_plain) (with_entities h before behind l') -> header_part h -> loads h = Ok d0 ->
  Forall (fun s => named "HEADER" s = false /\ closed s /\ exists a, loads (h ++ [s]) = Ok a) (before ++ behind) -> Forall2 padded l l' ->
  exists d, loads (with_entities h before behind l) = Ok d /\ loads (with_entities h before behind l') = Ok d.
Proof. intros env ascii h before behind l l' d0 loads S S' Hh H0 Hs F. apply (bytes_with text_plain loads env h before behind l l' d0); try assumption; [|exact (padded_alike _ _ F)]. intros m d. apply text_loads. Qed.
Print Assumptions C66_text_files_ignore_other_codes.
Definition short_line : list pair := [mk_pair 8 (VStr (str "A")); mk_pair 62 (VShort 3)].
Definition short_line' : list pair := [mk_pair 62 (VShort 3); mk_pair 8 (VStr (str "A"))].
Definition long_line : list pair := [mk_pair 100 (VStr (str "AcDbLine")); mk_pair 8 (VStr (str "A")); mk_pair 62 (VShort 3)].
Example C65_bytes_case : let file l := with_entities [a_header] [a_tables] [an_objects] [("LINE", l)] in
  Forall2 reordered [("LINE", short_line)] [("LINE", short_line')] /\ Forall2 padded [("LINE", short_line)] [("LINE", long_line)] /\
  Forall (fun l => Forall (storable_section text_plain) (file l) /\ Forall (storable_section (binary_storable R2000)) (file l)) [short_line; short_line'; long_line].
Proof.
  cbv zeta. assert (R : readable ("LINE", short_line)) by (apply readableb_sound; vm_compute; reflexivity). assert (U : ungrouped short_line) by (apply ungroupedb_sound; reflexivity). split; [|split].
  - constructor; [|constructor]. split; [reflexivity|]. split; [cbn; intuition discriminate|]. split; [exact U|]. split; [|exact R]. intros c. unfold short_line, short_line'. cbn [snd filter p_code]. destruct (8 =? c) eqn:E1, (62 =? c) eqn:E2; try lia; reflexivity.
  - constructor; [|constructor]. split; [reflexivity|]. split; [exact U|]. split; [apply ungroupedb_sound; reflexivity|]. split; [vm_compute; reflexivity|exact R].
  - assert (P : forall p, text_storableb R12 p = true -> match p_value p with VStr s => simple s = true | VDouble _ => False | _ => True end -> text_plain p).
    { intros p H K. destruct (text_storableb_sound R12 p H) as (T & (W & _) & N). split; [exact T|]. split; [exact W|]. split; [exact N|]. destruct (p_value p); try exact Logic.I; [contradiction K|apply simple_plain, K]. }
    repeat (constructor; [split|]); try (apply P; reflexivity); try (apply binary_storableb_sound; reflexivity); try (repeat (constructor; [apply P; reflexivity|]); constructor); try (repeat (constructor; [apply binary_storableb_sound; reflexivity|]); constructor); try constructor.
Qed.
