(** Binary data of entities and objects (C70). *)
From Verif Require Import Base F64Model CodePairModel CodePairSpec VersionModel SpecModel SpecSpec DrawingModel DocSpec FileModel EntityData ObjectData DocProofs ListSpec PieceSpec PieceProofs.
Open Scope string_scope.
Open Scope list_scope.
Open Scope Z_scope.
Set Default Goal Selector "!".

(** Every type of entity: the pieces under 310 are kept one by one, in their order and whatever stands between them. *)
Theorem C70_reading_binary_data t ps nx rest st r : In t entities -> plain ps -> p_code nx = 0 -> read_item (it_spec t) (map Ok ps ++ Ok nx :: rest) = Ok (Some st, r) ->
  r = Ok nx :: rest /\ holds_pieces st (piece_field (sp_type (it_spec t))) (pieces ps).
Proof. intros Ht. exact (item_pieces _ _ _ _ _ _ _ (proj1 (forallb_forall _ _) entity_pieces_read t Ht)). Qed.
Print Assumptions C70_reading_binary_data.
(** Written, the pieces of the preview come first and the data of the type behind them; there are no others. *)
Theorem C70_writing_binary_data t data v st p ps : In t entities -> version_leb R2000 v = true -> as_list (st "common.extension_data_groups") = [] -> as_list (st "common.x_data") = [] ->
  (forall f, In f (piece_fields (sp_type (it_spec t))) -> holds_pieces st f (data f)) -> write_typed t v true st (Ok []) = Ok (p :: ps) ->
  under 310 ps = map VBin (flat_map data (piece_fields (sp_type (it_spec t)))).
Proof.
  intros Ht V G1 G2 D W. refine (typed_pieces t _ data v st p ps (same_fields_eq _ _ (proj1 (forallb_forall _ _) entity_pieces_written t Ht)) V _ D W). intros s [<-|[<-|[]]]; assumption.
Qed.
Print Assumptions C70_writing_binary_data.
Theorem C70_reading_object_binary_data ty f t ps nx rest st r : In (ty, f) object_pieces -> In t objects -> sp_type (it_spec t) = str ty -> plain ps -> p_code nx = 0 ->
  read_item (it_spec t) (map Ok ps ++ Ok nx :: rest) = Ok (Some st, r) -> r = Ok nx :: rest /\ holds_pieces st f (pieces ps).
Proof. intros K Ht E. exact (item_pieces _ _ _ _ _ _ _ (proj1 (object_piece _ _ _ K Ht E))). Qed.
Print Assumptions C70_reading_object_binary_data.
Theorem C70_writing_object_binary_data ty f t l v st p ps : In (ty, f) object_pieces -> In t objects -> sp_type (it_spec t) = str ty -> version_leb R2000 v = true ->
  as_list (st "common.extension_data_groups") = [] -> as_list (st "common.x_data") = [] -> holds_pieces st f l -> write_typed t v true st (Ok []) = Ok (p :: ps) -> under 310 ps = map VBin l.
Proof.
  intros K Ht E V G1 G2 D W. rewrite (typed_pieces t [f] (fun _ => l) v st p ps (proj2 (object_piece _ _ _ K Ht E)) V); [cbn [flat_map]; rewrite app_nil_r; reflexivity| |intros g [<-|[]]; exact D|exact W]. intros s [<-|[<-|[]]]; assumption.
Qed.
Print Assumptions C70_writing_object_binary_data.
(** The project of macros: the bytes of all pieces. *)
Theorem C70_reading_macros ps nx rest st r : plain ps -> p_code nx = 0 -> read_item (it_spec obj_vba_project) (map Ok ps ++ Ok nx :: rest) = Ok (Some st, r) ->
  r = Ok nx :: rest /\ st "data" = FList (map (fun b => FInt (Z.of_N b)) (concat (pieces ps))).
Proof. exact (project_joined ps nx rest st r). Qed.
Print Assumptions C70_reading_macros.

Definition piece_pairs : list pair := [mk_pair 5 (VStr (str "2F")); mk_pair 310 (VBin [1; 2]%N); mk_pair 330 (VStr (str "1F")); mk_pair 310 (VBin [3]%N)].
Definition piece_end : pair := mk_pair 0 (VStr (str "ENDSEC")).
Definition pieces_read (t : itype) (f : string) : option fval := match read_item (it_spec t) (map Ok piece_pairs ++ [Ok piece_end]) with Ok (Some st, _) => Some (st f) | _ => None end.
Example C70_reading_binary_data_ex : plain piece_pairs /\ pieces piece_pairs = [[1; 2]; [3]]%N /\ In ent_line entities /\ In ent_ole_frame entities /\ map (fun t => piece_field (sp_type (it_spec t))) [ent_line; ent_ole_frame] = ["common.preview_image_data"; "binary_data_strings"] /\
  pieces_read ent_line "common.preview_image_data" = Some (FList [FBin [1; 2]; FBin [3]]%N) /\ pieces_read ent_ole_frame "binary_data_strings" = Some (FList [FBin [1; 2]; FBin [3]]%N) /\
  pieces_read ent_ole_frame "common.preview_image_data" = Some (FList []) /\ pieces_read obj_acad_proxy_object "binary_object_data" = Some (FList [FBin [1; 2]; FBin [3]]%N) /\
  pieces_read obj_vba_project "data" = Some (FList [FInt 1; FInt 2; FInt 3]).
Proof. split; [repeat constructor; cbn; lia|]. split; [reflexivity|]. split; [cbn; tauto|]. split; [cbn; tauto|]. vm_compute. repeat split; reflexivity. Qed.
Definition framed : store := upd (upd (default_of (it_spec ent_ole_frame)) "common.preview_image_data" (FList [FBin [9]%N])) "binary_data_strings" (FList [FBin [1]; FBin [2]]%N).
Definition framed_data (f : string) : list bytes := if String.eqb f "binary_data_strings" then [[1]; [2]]%N else [[9]]%N.
Example C70_writing_binary_data_ex : (forall f, In f (piece_fields (sp_type (it_spec ent_ole_frame))) -> holds_pieces framed f (framed_data f)) /\
  match write_typed ent_ole_frame R2010 true framed (Ok []) with Ok (p :: ps) => (p_value p, under 310 ps) | _ => (VInt 0, []) end = (VStr (str "OLEFRAME"), [VBin [9]; VBin [1]; VBin [2]]%N).
Proof. split; [intros f [<-|[<-|[]]]; reflexivity|vm_compute; reflexivity]. Qed.
Example C70_writing_object_binary_data_ex : In obj_acad_proxy_object objects /\ sp_type (it_spec obj_acad_proxy_object) = str "ACAD_PROXY_OBJECT" /\
  match write_typed obj_acad_proxy_object R2010 true (upd (default_of (it_spec obj_acad_proxy_object)) "binary_object_data" (FList [FBin [7]; FBin [8]]%N)) (Ok []) with Ok (_ :: ps) => under 310 ps | _ => [] end = [VBin [7]; VBin [8]]%N.
Proof. split; [cbn; tauto|]. split; [reflexivity|vm_compute; reflexivity]. Qed.
(** So a frame with a preview does not come back: the preview is taken for data. *)
Theorem C70_frame_preview_refuted : exists st ps st' r, write_item (it_spec ent_ole_frame) R2010 true st = Ok ps /\ read_item (it_spec ent_ole_frame) (map Ok ps ++ [Ok piece_end]) = Ok (Some st', r) /\
  holds_pieces st "binary_data_strings" [[1]; [2]]%N /\ holds_pieces st' "binary_data_strings" [[9]; [1]; [2]]%N /\ holds_pieces st' "common.preview_image_data" [].
Proof.
  destruct (write_item (it_spec ent_ole_frame) R2010 true framed) as [ps|] eqn:W; [|vm_compute in W; discriminate W].
  destruct (read_item (it_spec ent_ole_frame) (map Ok ps ++ [Ok piece_end])) as [[[st'|] r]|] eqn:R; [|vm_compute in W; injection W as <-; vm_compute in R; discriminate R..].
  exists framed, ps, st', r. split; [exact W|]. split; [exact R|]. split; [reflexivity|]. unfold holds_pieces. vm_compute in W. injection W as <-. vm_compute in R. injection R as <- _. split; reflexivity.
Qed.
Print Assumptions C70_frame_preview_refuted.
