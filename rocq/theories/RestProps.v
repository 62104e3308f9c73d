(** Group codes of sections, OLE frames, proxies, placeholders and the texts of R2000 (C61, C70). *)
From Verif Require Import Base F64Model CodePairModel CodePairSpec VersionModel SpecModel SpecSpec DrawingModel DocSpec FileModel EntityData ObjectData DocProofs ListSpec RestSpec RestProofs.
Open Scope string_scope.
Open Scope list_scope.
Open Scope Z_scope.
Set Default Goal Selector "!".

Theorem C61_reading_rest_entities ty kind v rows ps nx rest o r : In (ty, kind, v, rows) rest_entities -> plain ps -> p_code nx = 0 -> read_entity (Ok (mk_pair 0 (VStr (str ty))) :: map Ok ps ++ Ok nx :: rest) = Ok (o, r) ->
  r = Ok nx :: rest /\ exists x, o = Some x /\ kind_of x = kind /\ forall w, In w rows -> field_follows ps (snd x) w.
Proof.
  intros K P Z0 H. destruct (rest_type _ _ _ _ K) as (t & T & _ & _ & _ & Rd). rewrite Rd in H. destruct (read_item (it_spec t) (map Ok ps ++ Ok nx :: rest)) as [[y q]|] eqn:E; cbn [bind] in H; [|discriminate H].
  destruct (type_follows _ _ _ _ _ _ _ _ _ T P Z0 E) as (N & -> & st & -> & F). injection H as <- <-. split; [reflexivity|]. exists (t, st). split; [reflexivity|]. split; [exact N|exact F].
Qed.
Print Assumptions C61_reading_rest_entities.
Theorem C61_documented_rest_accepted ty kind v rows ps nx rest : In (ty, kind, v, rows) rest_entities ->
  Forall (fun p => typed p /\ exists w x, In w rows /\ p_code p = rw_code w /\ understood (rw_means w) (p_value p) = Some x) ps -> p_code nx = 0 ->
  exists x, read_entity (Ok (mk_pair 0 (VStr (str ty))) :: map Ok ps ++ Ok nx :: rest) = Ok (Some x, Ok nx :: rest) /\ kind_of x = kind.
Proof.
  intros K P Z0. destruct (rest_type _ _ _ _ K) as (t & T & _ & _ & _ & Rd). rewrite Rd. destruct (type_accepts _ _ _ _ _ _ rest T P Z0) as (N & st & ->). cbn [bind]. exists (t, st). split; [reflexivity|exact N].
Qed.
Print Assumptions C61_documented_rest_accepted.
Theorem C61_writing_rest_entities ty kind v0 rows t v st ps : In (ty, kind, v0, rows) rest_entities -> from_type_string (str ty) = Some t -> version_leb v0 v = true ->
  as_list (st "common.extension_data_groups") = [] -> as_list (st "common.x_data") = [] -> write_typed t v true st (Ok []) = Ok ps ->
  exists own, ps = mk_pair 0 (VStr (str ty)) :: own /\ forall w, In w rows -> version_leb (rw_since w) v = true -> pairs_follow own st w.
Proof.
  intros K E V G1 G2 W. destruct (rest_type _ _ _ _ K) as (t' & T & D & N & F & _). rewrite E in F. injection F as <-. rewrite <- N. refine (type_pairs _ _ _ _ _ _ _ T D V _ W). intros s [<-|[<-|[]]]; assumption.
Qed.
Print Assumptions C61_writing_rest_entities.
Theorem C61_reading_rest_objects ty kind v rows t ps nx rest o r : In (ty, kind, v, rows) rest_objects -> In t objects -> sp_type (it_spec t) = str ty -> plain ps -> p_code nx = 0 -> read_item (it_spec t) (map Ok ps ++ Ok nx :: rest) = Ok (o, r) ->
  sp_name (it_spec t) = kind /\ r = Ok nx :: rest /\ exists st, o = Some st /\ forall w, In w rows -> field_follows ps st w.
Proof. intros K Ht E P Z0 H. exact (type_follows _ _ _ _ _ _ _ _ _ (proj1 (rest_object_type _ _ _ _ _ K Ht E)) P Z0 H). Qed.
Print Assumptions C61_reading_rest_objects.
Theorem C61_writing_rest_objects ty kind v0 rows t v st ps : In (ty, kind, v0, rows) rest_objects -> In t objects -> sp_type (it_spec t) = str ty -> version_leb v0 v = true ->
  as_list (st "common.extension_data_groups") = [] -> as_list (st "common.x_data") = [] -> write_typed t v true st (Ok []) = Ok ps ->
  exists own, ps = mk_pair 0 (VStr (str ty)) :: own /\ forall w, In w rows -> version_leb (rw_since w) v = true -> pairs_follow own st w.
Proof.
  intros K Ht E V G1 G2 W. destruct (rest_object_type _ _ _ _ _ K Ht E) as (T & D). rewrite <- E. refine (type_pairs _ _ _ _ _ _ _ T D V _ W). intros s [<-|[<-|[]]]; assumption.
Qed.
Print Assumptions C61_writing_rest_objects.
Definition cut_pairs : list pair := [mk_pair 8 (VStr (str "A")); mk_pair 90 (VInt 2); mk_pair 91 (VInt 1); mk_pair 1 (VStr (str "Cut")); mk_pair 40 (VDouble one); mk_pair 70 (VShort 70); mk_pair 92 (VInt 0)].
Definition rest_end : pair := mk_pair 0 (VStr (str "ENDSEC")).
Example C61_reading_rest_entities_ex : map (fun e => fst (fst (fst e))) rest_entities = ["SECTION"; "OLEFRAME"; "ACAD_PROXY_ENTITY"] /\ plain cut_pairs /\
  match read_entity (Ok (mk_pair 0 (VStr (str "SECTION"))) :: map Ok cut_pairs ++ [Ok rest_end]) with
  | Ok (Some x, r) => (kind_of x, map (snd x) ["state"; "flags"; "top_height"; "bottom_height"; "indicator_transparency"; "vertical_direction.z"], snd x "name", length r)
  | _ => ("", [], FInt 0, O)
  end = ("Section", [FInt 2; FInt 1; FF64 one; FF64 0; FInt 70; FF64 one], FStr (str "Cut"), 1%nat).
Proof. split; [reflexivity|]. split; [repeat constructor; cbn; lia|vm_compute; reflexivity]. Qed.
Example C61_documented_rest_accepted_ex : Forall (fun p => typed p /\ exists w x, In w [whole 70 "version_number" 0; whole 90 "binary_data_length" 0] /\ p_code p = rw_code w /\ understood (rw_means w) (p_value p) = Some x) [mk_pair 90 (VInt 5)].
Proof. constructor; [|constructor]. split; [exists 90, 99; split; [cbn; tauto|cbn; lia]|]. exists (whole 90 "binary_data_length" 0), (FInt 5). split; [cbn; tauto|split; reflexivity]. Qed.
Example C61_writing_rest_entities_ex : match from_type_string (str "SECTION") with
  | Some t => match write_typed t R2010 true (upd (default_of (it_spec t)) "name" (FStr (str "Cut"))) (Ok []) with Ok ps => map p_value (filter (fun p => existsb (Z.eqb (p_code p)) [0; 1; 70]) ps) | _ => [] end
  | None => [] end = [VStr (str "SECTION"); VStr (str "Cut"); VShort 0].
Proof. vm_compute. reflexivity. Qed.
Example C61_rest_objects_ex : In obj_acad_proxy_object objects /\ sp_type (it_spec obj_acad_proxy_object) = str "ACAD_PROXY_OBJECT" /\
  match read_item (it_spec obj_acad_proxy_object) (map Ok [mk_pair 5 (VStr (str "2F")); mk_pair 91 (VInt 501); mk_pair 70 (VShort 1)] ++ [Ok rest_end]) with
  | Ok (Some st, _) => (map st ["common.handle"; "proxy_object_class_id"; "application_object_class_id"; "is_original_object_format"],
                        match write_typed obj_acad_proxy_object R2000 true st (Ok []) with Ok ps => map p_value (filter (fun p => existsb (Z.eqb (p_code p)) [5; 91]) ps) | _ => [] end)
  | _ => ([], []) end = ([FHandle 0x2F; FInt 499; FInt 501; FBool true], [VStr (str "2F"); VInt 501]).
Proof. split; [cbn; tauto|]. split; [reflexivity|vm_compute; reflexivity]. Qed.
(** The owner of a proxy entity ends up among the identifiers of its objects. *)
Definition proxy_pairs : list pair := [mk_pair 5 (VStr (str "2F")); mk_pair 330 (VStr (str "1F"))].
Definition proxy_owner_lost : bool :=
  match read_entity (Ok (mk_pair 0 (VStr (str "ACAD_PROXY_ENTITY"))) :: map Ok proxy_pairs ++ [Ok rest_end]) with
  | Ok (Some x, _) => fval_eqb (snd x "common.__owner_handle") (FHandle 0) && match snd x "object_id_1" with FList [FStr i] => seqb i (str "1F") | _ => false end
  | _ => false
  end.
Theorem C61_proxy_owner_refuted : exists ps x r, plain ps /\ last_under 330 ps = Some (VStr (str "1F")) /\ read_entity (Ok (mk_pair 0 (VStr (str "ACAD_PROXY_ENTITY"))) :: map Ok ps ++ [Ok rest_end]) = Ok (Some x, r) /\
  snd x "common.__owner_handle" = FHandle 0 /\ snd x "object_id_1" = FList [FStr (str "1F")].
Proof.
  assert (proxy_owner_lost = true) as L by (vm_compute; reflexivity). unfold proxy_owner_lost in L. destruct (read_entity _) as [[[x|] r]|] eqn:E; try discriminate L. apply andb_true_iff in L as [L1 L2].
  exists proxy_pairs, x, r. split; [repeat constructor; cbn; lia|]. split; [reflexivity|]. split; [exact E|]. split; [exact (fval_eqb_eq _ _ L1)|].
  destruct (snd x "object_id_1") as [| | | | | | | |l]; try discriminate L2. destruct l as [|[| | |i| | | | |] [|]]; try discriminate L2. apply seqb_eq in L2 as ->. reflexivity.
Qed.
Print Assumptions C61_proxy_owner_refuted.

(** Remote texts and texts along an arc; only files of R2000 have them. *)
Theorem C61_reading_r2000_texts ty kind rows ps nx rest o r : In (ty, kind, rows) r2000_entities -> plain ps -> p_code nx = 0 -> read_entity (Ok (mk_pair 0 (VStr (str ty))) :: map Ok ps ++ Ok nx :: rest) = Ok (o, r) ->
  r = Ok nx :: rest /\ exists x, o = Some x /\ kind_of x = kind /\ forall w, In w rows -> field_follows ps (snd x) w.
Proof.
  intros K P Z0 H. destruct (text_type _ _ _ K) as (t & N & I & _ & _ & _ & _ & _ & Rd). rewrite Rd in H. destruct (read_item (it_spec t) (map Ok ps ++ Ok nx :: rest)) as [[y q]|] eqn:E; cbn [bind] in H; [|discriminate H].
  destruct (item_follows _ _ _ _ _ _ _ I P Z0 E) as (-> & st & -> & F). injection H as <- <-. split; [reflexivity|]. exists (t, st). split; [reflexivity|]. split; [exact N|exact F].
Qed.
Print Assumptions C61_reading_r2000_texts.
Theorem C61_documented_r2000_texts_accepted ty kind rows ps nx rest : In (ty, kind, rows) r2000_entities ->
  Forall (fun p => typed p /\ exists w x, In w rows /\ p_code p = rw_code w /\ understood (rw_means w) (p_value p) = Some x) ps -> p_code nx = 0 ->
  exists x, read_entity (Ok (mk_pair 0 (VStr (str ty))) :: map Ok ps ++ Ok nx :: rest) = Ok (Some x, Ok nx :: rest) /\ kind_of x = kind.
Proof.
  intros K P Z0. destruct (text_type _ _ _ K) as (t & N & I & T & _ & _ & _ & _ & Rd). rewrite Rd. destruct (item_accepts _ _ _ _ rest I T P Z0) as (st & ->). cbn [bind]. exists (t, st). split; [reflexivity|exact N].
Qed.
Print Assumptions C61_documented_r2000_texts_accepted.
Theorem C61_writing_r2000_texts ty kind rows t st ps : In (ty, kind, rows) r2000_entities -> from_type_string (str ty) = Some t ->
  as_list (st "common.extension_data_groups") = [] -> as_list (st "common.x_data") = [] -> write_typed t R2000 true st (Ok []) = Ok ps ->
  exists own, ps = mk_pair 0 (VStr (str ty)) :: own /\ forall w, In w rows -> version_leb (rw_since w) R2000 = true -> pairs_follow own st w.
Proof.
  intros K E G1 G2 W. destruct (text_type _ _ _ K) as (t' & _ & _ & _ & S & D & N & F & _). rewrite E in F. injection F as <-. rewrite <- N. refine (text_pairs _ _ _ _ S D _ W). intros s [<-|[<-|[]]]; assumption.
Qed.
Print Assumptions C61_writing_r2000_texts.
Definition arc_text_pairs : list pair := [mk_pair 8 (VStr (str "A")); mk_pair 1 (VStr (str "round")); mk_pair 2 (VStr (str "txt")); mk_pair 40 (VDouble one); mk_pair 75 (VShort 1); mk_pair 79 (VShort 1); mk_pair 90 (VInt 3)].
Example C61_r2000_texts_ex : map (fun e => fst (fst e)) r2000_entities = ["RTEXT"; "ARCALIGNEDTEXT"] /\ plain arc_text_pairs /\
  match read_entity (Ok (mk_pair 0 (VStr (str "ARCALIGNEDTEXT"))) :: map Ok arc_text_pairs ++ [Ok rest_end]) with
  | Ok (Some x, r) => (kind_of x, map (snd x) ["text"; "font_name"; "arc_radius"; "width_factor"; "is_bold"; "is_italic"; "font_type"; "color_index"],
                       match write_typed (fst x) R2000 true (snd x) (Ok []) with Ok ps => map p_value (filter (fun p => existsb (Z.eqb (p_code p)) [0; 1; 40; 75; 79]) ps) | _ => [] end)
  | _ => ("", [], [])
  end = ("ArcAlignedText", [FStr (str "round"); FStr (str "txt"); FF64 one; FF64 one; FBool false; FBool true; FInt 1; FInt 3], [VStr (str "ARCALIGNEDTEXT"); VStr (str "round"); VDouble one; VShort 1; VShort 1]).
Proof. split; [reflexivity|]. split; [repeat constructor; cbn; lia|vm_compute; reflexivity]. Qed.
(** The objects a proxy entity refers to. *)
Theorem C70_reading_proxy_lists ps nx rest o r : plain ps -> p_code nx = 0 -> read_item (it_spec ent_proxy_entity) (map Ok ps ++ Ok nx :: rest) = Ok (o, r) -> r = Ok nx :: rest /\ exists st, o = Some st /\ forall w, In w proxy_lists -> list_follows ps st w.
Proof. exact (proxy_follows ps nx rest o r). Qed.
Print Assumptions C70_reading_proxy_lists.
(** All but the first, whose code is also that of the owner. *)
Theorem C70_writing_proxy_lists_partial v st ps : version_leb R2000 v = true -> as_list (st "common.extension_data_groups") = [] -> as_list (st "common.x_data") = [] -> write_typed ent_proxy_entity v true st (Ok []) = Ok ps ->
  exists own, ps = mk_pair 0 (VStr (str "ACAD_PROXY_ENTITY")) :: own /\ forall w, In w (tl proxy_lists) -> pairs_list own st w.
Proof. intros V G1 G2 W. refine (proxy_pairs_list v st ps V _ W). intros s [<-|[<-|[]]]; assumption. Qed.
Print Assumptions C70_writing_proxy_lists_partial.
Definition ids_pairs : list pair := [mk_pair 340 (VStr (str "1A")); mk_pair 350 (VStr (str "1B")); mk_pair 340 (VStr (str "1C")); mk_pair 360 (VStr (str "1D"))].
Example C70_proxy_lists_ex : plain ids_pairs /\ map lr_field (tl proxy_lists) = ["object_id_2"; "object_id_3"; "object_id_4"] /\
  match read_item (it_spec ent_proxy_entity) (map Ok ids_pairs ++ [Ok rest_end]) with
  | Ok (Some st, _) => (map st ["object_id_1"; "object_id_2"; "object_id_3"; "object_id_4"],
                        match write_typed ent_proxy_entity R2000 true st (Ok []) with Ok ps => map p_value (filter (fun p => existsb (Z.eqb (p_code p)) [340; 350; 360]) ps) | _ => [] end)
  | _ => ([], []) end = ([FList []; FList [FStr (str "1A"); FStr (str "1C")]; FList [FStr (str "1B")]; FList [FStr (str "1D")]], [VStr (str "1A"); VStr (str "1C"); VStr (str "1B"); VStr (str "1D")]).
Proof. split; [repeat constructor; cbn; lia|]. split; [reflexivity|vm_compute; reflexivity]. Qed.
(** The first of the lists is not what is found under its code: the owner is written among the identifiers. *)
Definition owned_proxy : store := upd (default_of (it_spec ent_proxy_entity)) "common.__owner_handle" (FHandle 0x1F).
Theorem C70_proxy_owner_listed_refuted : exists st ps w, In w proxy_lists /\ write_typed ent_proxy_entity R2010 true st (Ok []) = Ok ps /\ st (lr_field w) = FList [] /\ ~ pairs_list (tl ps) st w.
Proof.
  destruct (write_typed ent_proxy_entity R2010 true owned_proxy (Ok [])) as [ps|] eqn:W; [|vm_compute in W; discriminate W].
  assert (under 330 (tl ps) = [VStr (str "1F")]) as U by (vm_compute in W; injection W as <-; reflexivity).
  exists owned_proxy, ps, (mk_lrow "object_id_1" (Each 330 Text)). split; [cbn; tauto|]. split; [exact W|]. split; [reflexivity|].
  intros H. specialize (H [] eq_refl (Forall_nil _)). rewrite U in H. inversion H.
Qed.
Print Assumptions C70_proxy_owner_listed_refuted.
(** A proxy object has one list for the identifiers of all four kinds. *)
Theorem C70_reading_proxy_identifiers ps nx rest st r : plain ps -> Forall (fun p => In (p_code p) identifier_codes -> exists s, p_value p = VStr s) ps -> p_code nx = 0 -> read_item (it_spec obj_acad_proxy_object) (map Ok ps ++ Ok nx :: rest) = Ok (Some st, r) ->
  r = Ok nx :: rest /\ st "object_ids" = FList (identifiers ps).
Proof. exact (ids_follow ps nx rest st r). Qed.
Print Assumptions C70_reading_proxy_identifiers.
Example C70_reading_proxy_identifiers_ex : Forall (fun p => In (p_code p) identifier_codes -> exists s, p_value p = VStr s) ids_pairs /\ identifiers ids_pairs = map (fun s => FStr (str s)) ["1A"; "1C"; "1B"; "1D"] /\
  match read_item (it_spec obj_acad_proxy_object) (map Ok ids_pairs ++ [Ok rest_end]) with Ok (Some st, _) => Some (st "object_ids") | _ => None end = Some (FList (map (fun s => FStr (str s)) ["1A"; "1C"; "1B"; "1D"])).
Proof. split; [repeat constructor; intros _; eexists; reflexivity|]. split; vm_compute; reflexivity. Qed.
(** Written again, the owner is the first of them. *)
Theorem C70_proxy_object_owner_refuted : exists st ps st' r, write_item (it_spec obj_acad_proxy_object) R2010 true st = Ok ps /\ read_item (it_spec obj_acad_proxy_object) (map Ok ps ++ [Ok rest_end]) = Ok (Some st', r) /\
  st "object_ids" = FList [FStr (str "2A")] /\ st' "object_ids" = FList [FStr (str "1F"); FStr (str "2A")] /\ st' "common.__owner_handle" = FHandle 0.
Proof.
  set (st := upd (upd (default_of (it_spec obj_acad_proxy_object)) "common.__owner_handle" (FHandle 0x1F)) "object_ids" (FList [FStr (str "2A")])).
  destruct (write_item (it_spec obj_acad_proxy_object) R2010 true st) as [ps|] eqn:W; [|vm_compute in W; discriminate W].
  destruct (read_item (it_spec obj_acad_proxy_object) (map Ok ps ++ [Ok rest_end])) as [[[st'|] r]|] eqn:R; [|vm_compute in W; injection W as <-; vm_compute in R; discriminate R..].
  exists st, ps, st', r. split; [exact W|]. split; [exact R|]. split; [reflexivity|]. vm_compute in W. injection W as <-. vm_compute in R. injection R as <- _. split; reflexivity.
Qed.
Print Assumptions C70_proxy_object_owner_refuted.
