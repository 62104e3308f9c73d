(** Group codes of attributes (C61). *)
From Verif Require Import Base F64Model CodePairModel CodePairSpec VersionModel SpecModel SpecSpec DrawingModel DocSpec FileModel EntityData DocProofs DimensionSpec AttribSpec AttribProofs.
Open Scope string_scope.
Open Scope list_scope.
Open Scope Z_scope.
Set Default Goal Selector "!".

(** An attribute without the marker AcDbXrecord: 10 is the location, 40 the height, 2 the tag, 70 the flags; the fields of the record have their defaults. *)
Theorem C61_reading_attributes ty kind tag ps nx rest o r : In (ty, kind, tag) attribute_kinds -> plain ps -> ~ In record_mark ps -> p_code nx = 0 ->
  read_entity (Ok (mk_pair 0 (VStr (str ty))) :: map Ok ps ++ Ok nx :: rest) = Ok (o, r) ->
  r = Ok nx :: rest /\ exists x, o = Some x /\ kind_of x = kind /\ (forall w, In w (common_rows ++ attribute_rows ++ before_record tag) -> field_follows ps (snd x) w) /\
    (forall w, In w in_record -> snd x (rw_field w) = rw_default w) /\ field_follows (behind_first 280 ps) (snd x) lock_row.
Proof.
  intros K P N Z0 H. destruct (attr_types _ _ _ K) as (t & T). rewrite (reads_attribute _ _ _ _ T) in H. destruct (read_item (it_spec t) (map Ok ps ++ Ok nx :: rest)) as [[y q]|] eqn:E; cbn [bind] in H; [|discriminate H].
  destruct (plain_attribute _ _ _ _ T _ _ _ _ _ P N Z0 E) as (-> & st & -> & F1 & F2 & F3). injection H as <- <-. split; [reflexivity|]. exists (t, st). split; [reflexivity|]. split; [exact (at_name _ _ _ _ T)|]. unfold both in F1. rewrite <- app_assoc in F1. split; [exact F1|split; [exact F2|exact F3]].
Qed.
Print Assumptions C61_reading_attributes.
(** With the marker: behind it the same codes are those of the record, and the attribute is what the pairs before it say. *)
Theorem C61_reading_attribute_records ty kind tag base own nx rest o r : In (ty, kind, tag) attribute_kinds -> plain base -> ~ In record_mark base -> plain own -> Forall (fun p => p_code p <> 100) own -> p_code nx = 0 ->
  read_entity (Ok (mk_pair 0 (VStr (str ty))) :: map Ok (base ++ record_mark :: own) ++ Ok nx :: rest) = Ok (o, r) ->
  r = Ok nx :: rest /\ exists x, o = Some x /\ kind_of x = kind /\ (forall w, In w (common_rows ++ attribute_rows) -> field_follows (base ++ record_mark :: own) (snd x) w) /\
    (forall w, In w (before_record tag) -> field_follows base (snd x) w) /\ (forall w, In w in_record -> field_follows own (snd x) w) /\ field_follows (behind_first 280 base) (snd x) lock_row.
Proof.
  intros K P N Po No Z0 H. destruct (attr_types _ _ _ K) as (t & T). rewrite (reads_attribute _ _ _ _ T) in H. destruct (read_item (it_spec t) (map Ok (base ++ record_mark :: own) ++ Ok nx :: rest)) as [[y q]|] eqn:E; cbn [bind] in H; [|discriminate H].
  destruct (attribute_with_record _ _ _ _ T _ _ _ _ _ _ P N Po No Z0 E) as (-> & st & -> & F). injection H as <- <-. split; [reflexivity|]. exists (t, st). split; [reflexivity|]. split; [exact (at_name _ _ _ _ T)|exact F].
Qed.
Print Assumptions C61_reading_attribute_records.
(** Documented pairs are never an error, in whatever order they come. *)
Theorem C61_documented_attributes_accepted ty kind tag ps nx rest : In (ty, kind, tag) attribute_kinds -> Forall (fits_first tag) ps -> ~ In record_mark ps -> p_code nx = 0 ->
  exists x, read_entity (Ok (mk_pair 0 (VStr (str ty))) :: map Ok ps ++ Ok nx :: rest) = Ok (Some x, Ok nx :: rest) /\ kind_of x = kind.
Proof.
  intros K F N Z0. destruct (attr_types _ _ _ K) as (t & T). destruct (attr_typed _ _ _ _ K T) as (V0 & V1 & V2 & V3). rewrite (reads_attribute _ _ _ _ T). destruct (accepts_plain _ _ _ _ T V0 ps nx rest F N Z0) as (st & ->).
  cbn [bind]. exists (t, st). split; [reflexivity|exact (at_name _ _ _ _ T)].
Qed.
Print Assumptions C61_documented_attributes_accepted.
Theorem C61_documented_attribute_records_accepted ty kind tag base own nx rest : In (ty, kind, tag) attribute_kinds -> Forall (fits_first tag) base -> ~ In record_mark base -> Forall fits_record own -> count_of 70 own <= 3 -> p_code nx = 0 ->
  exists x, read_entity (Ok (mk_pair 0 (VStr (str ty))) :: map Ok (base ++ record_mark :: own) ++ Ok nx :: rest) = Ok (Some x, Ok nx :: rest) /\ kind_of x = kind.
Proof.
  intros K F N Fo Co Z0. destruct (attr_types _ _ _ K) as (t & T). destruct (attr_typed _ _ _ _ K T) as (V0 & V1 & V2 & V3). rewrite (reads_attribute _ _ _ _ T). destruct (accepts_record _ _ _ _ T V0 V1 V2 V3 base own nx rest F N Fo Co Z0) as (st & ->).
  cbn [bind]. exists (t, st). split; [reflexivity|exact (at_name _ _ _ _ T)].
Qed.
Print Assumptions C61_documented_attribute_records_accepted.
(** What is written: the pairs of the attribute, and from R2007 the marker and the pairs of the record. *)
Theorem C61_writing_attributes ty tag t v st ps : In (ty, tag, t) [("ATTRIB", "attribute_tag", ent_attribute); ("ATTDEF", "text_tag", ent_attribute_definition)] -> version_leb R2000 v = true ->
  as_list (st "common.extension_data_groups") = [] -> as_list (st "common.x_data") = [] -> write_typed t v true st (Ok []) = Ok ps ->
  exists base own, ps = mk_pair 0 (VStr (str ty)) :: base ++ own /\ ~ In record_mark base /\
    (forall w, In w (common_rows ++ attribute_rows ++ before_record tag) -> version_leb (rw_since w) v = true -> pairs_follow base st w) /\
    (if version_leb R2007 v then exists rec, own = record_mark :: rec /\ forall w, In w in_record -> pairs_follow rec st w else own = []).
Proof.
  intros K V G1 G2 W. assert (no_groups entity_groups st) as G by (intros s [<-|[<-|[]]]; assumption). pose proof attribs_written as A. apply andb_true_iff in A as [A1 A2].
  destruct K as [E|[E|[]]]; injection E as <- <- <-; [exact (attribute_pairs_follow _ _ _ _ _ _ A1 V G W)|exact (attribute_pairs_follow _ _ _ _ _ _ A2 V G W)].
Qed.
Print Assumptions C61_writing_attributes.
Definition two : N := 0x4000000000000000.
Definition tag_pairs : list pair := [mk_pair 8 (VStr (str "A")); marker_of "AcDbText"; mk_pair 10 (VDouble one); mk_pair 40 (VDouble two); marker_of "AcDbAttribute"; mk_pair 280 (VShort 0); mk_pair 2 (VStr (str "PART")); mk_pair 70 (VShort 2); mk_pair 280 (VShort 1)].
Definition record_pairs : list pair := [mk_pair 280 (VShort 1); mk_pair 70 (VShort 2); mk_pair 70 (VShort 0); mk_pair 10 (VDouble two); mk_pair 40 (VDouble one); mk_pair 2 (VStr (str "X")); mk_pair 50 (VDouble two)].
Definition seen_fields : list string := ["location.x"; "text_height"; "flags"; "is_locked_in_block"; "alignment_point.x"; "annotation_scale"; "keep_duplicate_records"; "rotation"].
Definition attrib_end : pair := mk_pair 0 (VStr (str "SEQEND")).
Definition shows (ps : list pair) : list fval * list fval :=
  match read_entity (Ok (mk_pair 0 (VStr (str "ATTRIB"))) :: map Ok ps ++ [Ok attrib_end]) with
  | Ok (Some x, _) => (map (snd x) seen_fields, map (snd x) ["attribute_tag"; "x_record_tag"])
  | _ => ([], [])
  end.
Lemma tag_unmarked : ~ In record_mark tag_pairs.
Proof. intros H. repeat (destruct H as [H|H]; [discriminate H|]). exact H. Qed.
Example C61_reading_attributes_ex : plain tag_pairs /\ ~ In record_mark tag_pairs /\
  shows tag_pairs = ([FF64 one; FF64 two; FInt 2; FBool true; FF64 0; FF64 one; FBool false; FF64 0], [FStr (str "PART"); FStr []]).
Proof. split; [repeat constructor; cbn; lia|]. split; [exact tag_unmarked|vm_compute; reflexivity]. Qed.
Example C61_reading_attribute_records_ex : plain record_pairs /\ Forall (fun p => p_code p <> 100) record_pairs /\
  shows (tag_pairs ++ record_mark :: record_pairs) = ([FF64 one; FF64 two; FInt 2; FBool true; FF64 two; FF64 one; FBool true; FF64 two], [FStr (str "PART"); FStr (str "X")]).
Proof. split; [repeat constructor; cbn; lia|]. split; [repeat constructor; cbn; lia|vm_compute; reflexivity]. Qed.
Example C61_documented_attributes_accepted_ex : Forall (fits_first "attribute_tag") [marker_of "AcDbText"; mk_pair 280 (VShort 0); mk_pair 2 (VStr (str "PART"))] /\ Forall fits_record [mk_pair 70 (VShort 2); mk_pair 70 (VShort 0); mk_pair 340 (VStr (str "2F"))] /\
  count_of 70 [mk_pair 70 (VShort 2); mk_pair 70 (VShort 0); mk_pair 340 (VStr (str "2F"))] = 2.
Proof.
  split; [|split; [|reflexivity]].
  - constructor; [|constructor; [|constructor; [|constructor]]].
    + split; [exists 100, 102; split; [cbn; tauto|cbn; lia]|right; right; reflexivity].
    + split; [exists 270, 289; split; [cbn; tauto|cbn; lia]|right; left; reflexivity].
    + split; [exists 0, 9; split; [cbn; tauto|cbn; lia]|left]. exists (text 2 "attribute_tag" ""), (FStr (str "PART")). split; [apply in_or_app; right; cbn; tauto|split; reflexivity].
  - constructor; [|constructor; [|constructor; [|constructor]]].
    + split; [exists 60, 79; split; [cbn; tauto|cbn; lia]|right; left; reflexivity].
    + split; [exists 60, 79; split; [cbn; tauto|cbn; lia]|right; left; reflexivity].
    + split; [exists 320, 369; split; [cbn; tauto|cbn; lia]|right; right]. split; [reflexivity|]. exists (FHandle 0x2F). vm_compute. reflexivity.
Qed.
Definition locked_store : store := upd (default_of (it_spec ent_attribute)) "is_locked_in_block" (FBool true).
Definition written_with (v : version) (codes : list Z) : list value :=
  match write_typed ent_attribute v true locked_store (Ok []) with Ok ps => map p_value (filter (fun p => existsb (Z.eqb (p_code p)) codes) ps) | _ => [] end.
Example C61_writing_attributes_ex : as_list (locked_store "common.extension_data_groups") = [] /\ as_list (locked_store "common.x_data") = [] /\
  written_with R2004 [0; 40; 70; 280] = [VStr (str "ATTRIB"); VDouble one; VShort 0] /\ written_with R2010 [0; 40; 280] = [VStr (str "ATTRIB"); VDouble one; VShort 0; VShort 1; VShort 0; VDouble one].
Proof. split; [|split; [|split]]; vm_compute; reflexivity. Qed.
(** R2007: a locked attribute is written without a version, so that the reader takes the lock for the version. *)
Definition lock_lost : bool :=
  match write_typed ent_attribute R2007 true locked_store (Ok []) with
  | Ok ps => match read_entity (map Ok ps ++ [Ok attrib_end]) with Ok (Some x, _) => fval_eqb (snd x "is_locked_in_block") (FBool false) | _ => false end
  | _ => false
  end.
Theorem C61_attribute_lock_refuted : exists st ps x r, st "is_locked_in_block" = FBool true /\ write_typed ent_attribute R2007 true st (Ok []) = Ok ps /\ read_entity (map Ok ps ++ [Ok attrib_end]) = Ok (Some x, r) /\ snd x "is_locked_in_block" = FBool false.
Proof.
  assert (lock_lost = true) as L by (vm_compute; reflexivity). unfold lock_lost in L. destruct (write_typed _ _ _ _ _) as [ps|] eqn:W; [|discriminate L]. destruct (read_entity _) as [[[x|] r]|] eqn:E; try discriminate L.
  exists locked_store, ps, x, r. split; [reflexivity|]. split; [exact W|]. split; [exact E|exact (fval_eqb_eq _ _ L)].
Qed.
Print Assumptions C61_attribute_lock_refuted.
