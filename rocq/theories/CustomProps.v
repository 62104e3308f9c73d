(** C45: dictionaries. C46: objects that hold lists, read and written by code of their own. *)
From Verif Require Import Base TextModel CodePairModel VersionModel ExtDataModel ExtDataSpec SpecModel SpecSpec SpecCheck SpecProofs SpecCoverProofs SpecWitness
  F64Model GeometryModel DateModel EnumData ObjectData ObjectProps CustomModel CustomSpec CustomProofs.
From Coq Require Import Permutation.
Open Scope string_scope.
Open Scope list_scope.
Open Scope Z_scope.
Set Default Goal Selector "!".

(** Running a writer, then a reader. *)
Lemma both_run {A B} (w : res A) (r : A -> res B) (P : B -> Prop) :
  match w with Ok a => match r a with Ok b => P b | _ => False end | _ => False end -> exists a b, w = Ok a /\ r a = Ok b /\ P b.
Proof. destruct w as [a|]; [|intros []]. destruct (r a) as [b|] eqn:E; [|intros []]. intros H. exists a, b. auto. Qed.
Definition after : feed := [Ok (mk_pair 0 (VStr (str "X")))].
Lemma after_next : next_item after.
Proof. eexists. eexists. split; reflexivity. Qed.

(** * C45 *)

(** A dictionary written for any version, followed by anything that starts with a 0 pair, is read back with the same entries and nothing after
    it is consumed. The common fields come back as far as the version stores them. The rule for duplicate records is stored since R2000. Whether
    the dictionary owns its entries does not survive (C45_hard_owner_refuted). *)
Theorem C45_dictionary_survives : forall v item d, common_typed item -> dict_typed d ->
  exists ps st' d', write_dict v item d = Ok ps /\ (forall rest, next_item rest -> read_dict (map Ok ps ++ rest) = Ok (st', d', rest)) /\
    common_back v [] item st' /\ is_map (di_values d') /\ same_entries (di_values d) (di_values d') /\
    di_dup d' = (if version_leb R2000 v then di_dup d else 0).
Proof.
  intros v item d Hty Hd. destruct (dict_roundtrip v item d Hty Hd) as (ps & st' & d' & W & R & C & S & K & _ & D & _).
  exists ps, st', d'. split; [exact W|]. split; [exact R|]. split; [exact C|]. split; [|split; [exact S|exact D]].
  unfold is_map. rewrite K. eapply Permutation_NoDup; [apply sort_permutation|]. exact (proj1 (proj2 (proj2 Hd))).
Qed.
Print Assumptions C45_dictionary_survives.
(** The same with a default entry, whose handle always survives. *)
Theorem C45_dictionary_with_default_survives : forall v item d, common_typed item -> dict_typed d ->
  exists ps st' d', write_dictd v item d = Ok ps /\ (forall rest, next_item rest -> read_dictd (map Ok ps ++ rest) = Ok (st', d', rest)) /\
    common_back v [] item st' /\ is_map (di_values d') /\ same_entries (di_values d) (di_values d') /\
    di_dup d' = (if version_leb R2000 v then di_dup d else 0) /\ di_default d' = di_default d.
Proof.
  intros v item d Hty Hd. destruct (dictd_roundtrip v item d Hty Hd) as (ps & st' & d' & W & R & C & S & K & _ & D & F).
  exists ps, st', d'. split; [exact W|]. split; [exact R|]. split; [exact C|]. split; [|split; [exact S|split; [exact D|exact F]]].
  unfold is_map. rewrite K. eapply Permutation_NoDup; [apply sort_permutation|]. exact (proj1 (proj2 (proj2 Hd))).
Qed.
Print Assumptions C45_dictionary_with_default_survives.

(** Two dictionaries that differ only in the order in which their map lists its entries are written identically. *)
Theorem C45_written_order_is_fixed : forall v item h u f m m', is_map m -> Permutation m m' ->
  write_dict v item (mk_dict h u f m) = write_dict v item (mk_dict h u f m') /\
  write_dictd v item (mk_dict h u f m) = write_dictd v item (mk_dict h u f m').
Proof.
  intros v item h u f m m' Hm Hp. unfold write_dict, write_dictd. cbn [di_hard di_dup di_default di_values].
  rewrite !(write_entries_perm _ _ _ Hp Hm). split; reflexivity.
Qed.
Print Assumptions C45_written_order_is_fixed.
(** The entries are written in increasing order of their keys. *)
Theorem C45_keys_increase : forall v item d ps, is_map (di_values d) -> write_dict v item d = Ok ps ->
  exists m a b, same_entries (di_values d) m /\ increasing (map fst m) /\
    ps = a ++ flat_map (fun e => [new_str 3 (fst e); new_str (if di_hard d then 360 else 350) (handle_as_string (snd e))]) m ++ b.
Proof.
  intros v item d ps Hm W. unfold write_dict in W. destruct (write_ocommon v item) as [c|]; [|discriminate W]. cbn [bind] in W. injection W as <-.
  exists (sorted_entries (di_values d)), (c ++ [new_str 100 (str "AcDbDictionary")] ++
    (if version_leb R2000 v && negb (di_hard d) then [new_i16 280 (if di_hard d then 1 else 0)] else []) ++
    (if version_leb R2000 v then [new_i16 281 (di_dup d)] else [])), (write_oxdata v item). split; [apply sorted_entries_same, Hm|].
  split; [rewrite sorted_entries_keys; apply sort_increasing, Hm|]. rewrite <- write_sorted, <- !app_assoc. reflexivity.
Qed.
Print Assumptions C45_keys_increase.

(** A dictionary with two entries, extension data and extended data. *)
Definition owner_item : store := fun s =>
  if String.eqb s "common.handle" then FHandle 42 else if String.eqb s "common.__owner_handle" then FHandle 7
  else if String.eqb s "common.x_data" then FList [FXd (mk_xdata (str "APP") [XInteger 5; XStr (str "x")])] else FList [].
Lemma owner_typed : common_typed owner_item.
Proof.
  intros f Hf. unfold ocommon_fields in Hf. destruct Hf as [<-|[<-|[<-|[<-|[]]]]]; cbn [f_kind f_name].
  - exists 42%N. split; [reflexivity|lia].
  - exists []. split; [reflexivity|constructor].
  - eexists. split; [reflexivity|]. constructor; [|constructor]. eexists. split; [reflexivity|]. repeat constructor.
  - exists 7%N. split; [reflexivity|lia].
Qed.
Definition two_entries : dict := mk_dict true 3 0 [(str "b", 17%N); (str "a", 300%N)].
Example C45_dictionary_case : common_typed owner_item /\ dict_typed two_entries /\
  write_dict R2000 owner_item two_entries = Ok
    [new_str 5 (str "2A"); new_str 330 (str "7"); new_str 100 (str "AcDbDictionary"); new_i16 281 3;
     new_str 3 (str "a"); new_str 360 (str "12C"); new_str 3 (str "b"); new_str 360 (str "11");
     new_str 1001 (str "APP"); new_i16 1070 5; new_str 1000 (str "x")].
Proof.
  split; [apply owner_typed|]. split; [|vm_compute; reflexivity].
  split; [cbn; tauto|]. split; [cbn; lia|]. split; [|repeat constructor].
  unfold is_map. cbn. repeat constructor; cbn; intuition discriminate.
Qed.
(** [is_hard_owner] is written only when it is false, so it always comes back false. *)
Theorem C45_hard_owner_refuted : forall v, exists item d ps st' d', common_typed item /\ dict_typed d /\ write_dict v item d = Ok ps /\
  read_dict (map Ok ps ++ after) = Ok (st', d', after) /\
  di_hard d = true /\ di_hard d' = false.
Proof.
  intros v. destruct (dict_roundtrip v owner_item two_entries owner_typed (proj1 (proj2 C45_dictionary_case)))
    as (ps & st' & d' & W & R & _ & _ & _ & H & _).
  exists owner_item, two_entries, ps, st', d'. split; [apply owner_typed|]. split; [apply C45_dictionary_case|]. split; [exact W|].
  split; [apply R; eexists; eexists; split; reflexivity|]. auto.
Qed.
Print Assumptions C45_hard_owner_refuted.

(** * C46 *)

(** Sort tables, layer indexes and the other types of the XML file that hold lists come back (from C34). *)
Theorem C46_lists_of_the_xml_file_survive : forall t v, In t [obj_sortents_table; obj_layer_index; obj_layer_filter; obj_group; obj_geo_data] ->
  supported (it_spec t) v = true -> survives t v [].
Proof.
  intros t v Ht. apply C34_flawless_objects.
  - destruct Ht as [<-|[<-|[<-|[<-|[<-|[]]]]]]; cbn; tauto.
  - destruct Ht as [<-|[<-|[<-|[<-|[<-|[]]]]]]; reflexivity.
Qed.
Print Assumptions C46_lists_of_the_xml_file_survive.
Example C46_xml_case : forallb (fun t => supported (it_spec t) R2013 && existsb (fun f => match f_kind f with KList _ => f_public f | _ => false end) (it_fields t))
  [obj_sortents_table; obj_layer_index; obj_layer_filter; obj_group; obj_geo_data] = true.
Proof. vm_compute. reflexivity. Qed.
(** Lists of lights, buffers of identifiers, section managers and multi-line styles do not. *)
Theorem C46_lists_of_the_xml_file_refuted : forall t s v,
  In (t, s) [(obj_light_list, "__lights_handle"); (obj_id_buffer, "__entities_handle"); (obj_section_manager, "__section_entities_handle"); (obj_mline_style, "elements")] ->
  supported (it_spec t) v = true -> field_lost t v s.
Proof.
  intros t s v Ht Hs. apply C34_exceptions_refuted; [|exact Hs|].
  - destruct Ht as [E|[E|[E|[E|[]]]]]; injection E as <- <-; cbn; tauto.
  - destruct Ht as [E|[E|[E|[E|[]]]]]; injection E as <- <-; revert Hs; destruct v; vm_compute; intuition congruence.
Qed.
Print Assumptions C46_lists_of_the_xml_file_refuted.

(** ** X-records *)

(** What becomes of an x-record without 0 pairs in its data: the data come back in order, but after a pair 280 that is the lost rule for duplicate
    records, and before the pairs of the lost extended data. *)
Theorem C46_xrecord_data_partial : forall v item x, common_typed item -> Forall (fun p => p_code p <> 0) (xr_pairs x) ->
  exists ps st', write_xrec v item x = Ok ps /\
    (forall rest, next_item rest ->
      read_xrec (map Ok ps ++ rest) = Ok (st', mk_xrec 0 (new_i16 280 (xr_dup x) :: xr_pairs x ++ write_oxdata v item), rest)) /\
    common_back v ["common.x_data"] item st' /\ st' "common.x_data" = FList [].
Proof. exact xrec_roundtrip. Qed.
Print Assumptions C46_xrecord_data_partial.
(** Hence an x-record never comes back as it was. *)
Theorem C46_xrecord_refuted : forall v item x rest, common_typed item -> Forall (fun p => p_code p <> 0) (xr_pairs x) -> next_item rest ->
  exists ps st' x', write_xrec v item x = Ok ps /\ read_xrec (map Ok ps ++ rest) = Ok (st', x', rest) /\ xr_pairs x' <> xr_pairs x.
Proof.
  intros v item x rest Hty Hx Hr. destruct (xrec_roundtrip v item x Hty Hx) as (ps & st' & W & R & _).
  exists ps, st'. eexists. split; [exact W|]. split; [exact (R rest Hr)|]. cbn [xr_pairs]. intros E. apply (f_equal (@length pair)) in E. cbn [length] in E.
  rewrite app_length in E. lia.
Qed.
Print Assumptions C46_xrecord_refuted.
Example C46_xrecord_case : common_typed owner_item /\
  write_xrec R2000 owner_item (mk_xrec 3 [new_str 1 (str "one"); new_i16 70 2]) = Ok
    [new_str 5 (str "2A"); new_str 330 (str "7"); new_str 100 (str "AcDbXrecord"); new_i16 280 3; new_str 1 (str "one"); new_i16 70 2;
     new_str 1001 (str "APP"); new_i16 1070 5; new_str 1000 (str "x")].
Proof. split; [apply owner_typed|vm_compute; reflexivity]. Qed.
(** A data pair with code 0 ends the object: the rest of the data is left to be read as objects. *)
Theorem C46_xrecord_zero_refuted : exists ps b,
  write_xrec R2000 owner_item (mk_xrec 3 [mk_pair 0 (VStr (str "ENDSEC")); new_i16 70 2]) = Ok ps /\ read_xrec (map Ok ps ++ after) = Ok b /\
  xr_pairs (snd (fst b)) = [new_i16 280 3] /\
  snd b = map Ok [mk_pair 0 (VStr (str "ENDSEC")); new_i16 70 2; new_str 1001 (str "APP"); new_i16 1070 5; new_str 1000 (str "x")] ++ after.
Proof.
  apply (both_run _ (fun ps => read_xrec (map Ok ps ++ after)) (fun b => xr_pairs (snd (fst b)) = [new_i16 280 3] /\ snd b = _)).
  vm_compute. split; reflexivity.
Qed.
Print Assumptions C46_xrecord_zero_refuted.

(** ** Data tables *)

(** Everything but the values of a full data table comes back, and a table of the same size is made. *)
Theorem C46_data_table_partial : forall v item d, common_typed item -> full_table d ->
  exists ps st' d', write_dtable v item d = Ok ps /\ (forall rest, next_item rest -> read_dtable (map Ok ps ++ rest) = Ok (st', d', rest)) /\
    common_back v [] item st' /\ same_but_values d d' /\ length (dt_values d') = N.to_nat (dt_rows d) /\
    Forall (fun r => length r = N.to_nat (dt_cols d)) (dt_values d').
Proof.
  intros v item d Hty Hf. destruct (dtable_roundtrip v item d Hty Hf) as (ps & st' & d' & W & R & C & B & S1 & S2).
  exists ps, st', d'. pose proof B as (_ & B2 & B3 & _). rewrite B3 in S1. rewrite B2 in S2. auto 7.
Qed.
Print Assumptions C46_data_table_partial.
Definition small_table : dtable := mk_dtable 1 2 1 (str "T") [str "p"; str "q"] [[Some (DInt 5); Some (DStr (str "x"))]].
Example C46_data_table_case : full_table small_table.
Proof.
  unfold full_table. cbn. repeat split; try lia; repeat constructor. intros r H. injection H as <-. repeat constructor; discriminate.
Qed.
(** The values do not: they move one column to the right, and the last column is lost. *)
Theorem C46_data_table_values_refuted : exists ps b, write_dtable R2007 owner_item small_table = Ok ps /\ read_dtable (map Ok ps ++ after) = Ok b /\
  dt_values (snd (fst b)) = [[None; Some (DInt 5)]].
Proof. apply (both_run _ (fun ps => read_dtable (map Ok ps ++ after)) (fun b => dt_values (snd (fst b)) = _)). vm_compute. reflexivity. Qed.
Print Assumptions C46_data_table_values_refuted.
(** A table without rows can be read but writing it panics. *)
Theorem C46_data_table_write_panic_refuted : exists it b, read_dtable it = Ok b /\ write_dtable R2007 (fst (fst b)) (snd (fst b)) = Err Panic.
Proof.
  exists [Ok (new_i32 90 1); Ok (new_i32 91 0); Ok (new_str 1 (str "T"))].
  destruct (both_run (Ok tt) (fun _ => read_dtable [Ok (new_i32 90 1); Ok (new_i32 91 0); Ok (new_str 1 (str "T"))])
    (fun b => write_dtable R2007 (fst (fst b)) (snd (fst b)) = Err Panic)) as (_ & b & _ & E & P); [vm_compute; reflexivity|eauto].
Qed.
Print Assumptions C46_data_table_write_panic_refuted.
(** Reading a table whose number of columns changes panics. *)
Theorem C46_data_table_read_panic_refuted : exists it, read_dtable it = Err Panic.
Proof.
  exists [Ok (new_i32 90 1); Ok (new_i32 91 1); Ok (new_i32 90 5); Ok (new_i32 92 71); Ok (new_str 3 (str "x"))]. vm_compute. reflexivity.
Qed.
Print Assumptions C46_data_table_read_panic_refuted.

(** ** Section settings *)

(** With at most one group of settings, and no extended data after it, the settings come back. *)
Theorem C46_section_settings_partial : forall v item x rest, common_typed item -> Forall ts_typed (ss_settings x) -> (length (ss_settings x) <= 1)%nat ->
  ss_settings x = [] \/ write_oxdata v item = [] -> next_item rest ->
  exists ps st', write_secs v item x = Ok ps /\ read_secs (map Ok ps ++ rest) = Ok (st', x, rest) /\ common_back v [] item st'.
Proof. exact secs_roundtrip. Qed.
Print Assumptions C46_section_settings_partial.
Definition geo1 : geosettings := mk_geo 1 2 3 4 (str "0") (str "CONTINUOUS") three (str "p") 5 6 7 8 (str "h") 0 three 0.
Definition ts1 : typesettings := mk_ts 4 true [16%N; 17%N] 18 (str "file") [geo1; geo_default].
Definition plain_item : store := upd owner_item "common.x_data" (FList []).
Lemma plain_typed : common_typed plain_item.
Proof.
  intros f Hf. pose proof (owner_typed f Hf) as H. unfold ocommon_fields in Hf. destruct Hf as [<-|[<-|[<-|[<-|[]]]]]; cbn [f_kind f_name] in *; try exact H.
  exists []. split; [reflexivity|constructor].
Qed.
Example C46_section_settings_case : common_typed plain_item /\ Forall ts_typed [ts1] /\ write_oxdata R2007 plain_item = [] /\
  exists ps st', write_secs R2007 plain_item (mk_secs 3 [ts1]) = Ok ps /\ (40 < length ps)%nat /\
    read_secs (map Ok ps ++ after) = Ok (st', mk_secs 3 [ts1], after).
Proof.
  split; [apply plain_typed|]. split; [repeat constructor|]. split; [reflexivity|].
  destruct (C46_section_settings_partial R2007 plain_item (mk_secs 3 [ts1]) after) as (ps & st' & W & R & _);
    [apply plain_typed|repeat constructor|cbn; lia|right; reflexivity|apply after_next|].
  exists ps, st'. split; [exact W|]. split; [|exact R]. vm_compute in W. injection W as <-. cbn [length]. lia.
Qed.
(** Two groups become one. *)
Theorem C46_section_settings_merge_refuted : exists ps b, write_secs R2007 plain_item (mk_secs 3 [ts1; ts_default]) = Ok ps /\
  read_secs (map Ok ps ++ after) = Ok b /\ ss_settings (snd (fst b)) = [mk_ts 0 false [16%N; 17%N] 0 [] [geo1; geo_default]].
Proof. apply (both_run _ (fun ps => read_secs (map Ok ps ++ after)) (fun b => ss_settings (snd (fst b)) = _)). vm_compute. reflexivity. Qed.
Print Assumptions C46_section_settings_merge_refuted.
(** With extended data after a group, reading what was written never ends: no bound on the number of rounds of the inner loop is enough. *)
Theorem C46_section_settings_hang_refuted : exists x ps, Forall ts_typed (ss_settings x) /\ write_secs R2007 owner_item x = Ok ps /\
  forall fuel rest, read_secs_fuel fuel (map Ok ps ++ rest) = Err OutOfFuel.
Proof.
  exists (mk_secs 3 [ts1]). set (tail := map Ok (tl (write_ts ts1))).
  eexists. split; [repeat constructor|]. split; [vm_compute; reflexivity|]. intros fuel rest. unfold read_secs_fuel.
  set (xd := [Ok (new_i16 1070 5); Ok (new_str 1000 (str "x"))] ++ rest : feed).
  match goal with |- next_loop _ (S (length ?it)) _ _ = _ =>
    change it with ([Ok (new_str 5 (str "2A")); Ok (new_str 330 (str "7")); Ok (new_str 100 (str "AcDbSectionSettings")); Ok (new_i32 90 3); Ok (new_i32 91 1);
      Ok (new_str 1 (str "SectionTypeSettings"))] ++ (tail ++ Ok (new_str 1001 (str "APP")) :: xd) : feed) end.
  cbn [app length].
  assert (S5 : forall a it, secs_body fuel (new_str 5 (str "2A")) a it = Ok (upd (fst a) "common.handle" (FHandle 42), snd a, it)) by (intros [st x] it; reflexivity).
  assert (S330 : forall a it, secs_body fuel (new_str 330 (str "7")) a it = Ok (upd (fst a) "common.__owner_handle" (FHandle 7), snd a, it)) by (intros [st x] it; reflexivity).
  assert (S100 : forall a it, secs_body fuel (new_str 100 (str "AcDbSectionSettings")) a it = Ok (a, it)) by (intros [st x] it; reflexivity).
  assert (S90 : forall a it, secs_body fuel (new_i32 90 3) a it = Ok (fst a, mk_secs 3 (ss_settings (snd a)), it)) by (intros [st x] it; reflexivity).
  assert (S91 : forall a it, secs_body fuel (new_i32 91 1) a it = Ok (a, it)) by (intros [st x] it; reflexivity).
  rewrite next_loop_cons by discriminate. rewrite S5. cbn [bind].
  rewrite next_loop_cons by discriminate. rewrite S330. cbn [bind].
  rewrite next_loop_cons by discriminate. rewrite S100. cbn [bind].
  rewrite next_loop_cons by discriminate. rewrite S90. cbn [bind].
  rewrite next_loop_cons by discriminate. rewrite S91. cbn [bind].
  rewrite next_loop_cons by discriminate. unfold tail. rewrite secs_stuck; [reflexivity|repeat constructor|cbn; intuition discriminate].
Qed.
Print Assumptions C46_section_settings_hang_refuted.

(** ** Table styles *)

(** A table style without cell styles comes back, since R2010. *)
Theorem C46_table_style_partial : forall v item, version_leb R2010 v = true -> well_typed obj_table_style item ->
  exists ps st', write_tstyle v item [] = Ok ps /\ (forall rest, next_item rest -> read_tstyle (map Ok ps ++ rest) = Ok (st', [], rest)) /\
    forall f, In f (it_fields obj_table_style) -> st' (f_name f) = item (f_name f).
Proof. exact tstyle_roundtrip. Qed.
Print Assumptions C46_table_style_partial.
Definition style_item : store := item_with obj_table_style
  [("common.handle", FHandle 66); ("description", FStr (str "d")); ("flow_direction", FInt 1); ("flags", FInt 3); ("horizontal_cell_margin", FF64 three);
   ("is_title_suppressed", FBool true)].
Example C46_table_style_case : well_typed obj_table_style style_item /\ match write_tstyle R2010 style_item [] with Ok ps => length ps = 10%nat | _ => False end.
Proof. split; [apply typedb_sound; vm_compute; reflexivity|vm_compute; reflexivity]. Qed.
(** Before R2010 the suppression of titles is lost. *)
Theorem C46_table_style_old_refuted : forall v, supported (it_spec obj_table_style) v = true -> version_leb R2010 v = false ->
  exists ps st' rest, write_tstyle v style_item [] = Ok ps /\ read_tstyle (map Ok ps ++ after) = Ok (st', [], rest) /\
    style_item "is_title_suppressed" = FBool true /\ st' "is_title_suppressed" = FBool false.
Proof.
  intros v H1 H2.
  assert (E : forall v, supported (it_spec obj_table_style) v && negb (version_leb R2010 v) = true ->
    match write_tstyle v style_item [] with
    | Ok ps => match read_tstyle (map Ok ps ++ after) with
               | Ok (st', [], _) => match st' "is_title_suppressed" with FBool false => True | _ => False end
               | _ => False
               end
    | _ => False
    end).
  { intros w. destruct w; vm_compute; intros Hw; try discriminate Hw; exact Logic.I. }
  specialize (E v). rewrite H1, H2 in E. specialize (E eq_refl).
  destruct (write_tstyle v style_item []) as [ps|] eqn:W; [|contradiction].
  destruct (read_tstyle (map Ok ps ++ after)) as [[[st' [|c l]] r]|] eqn:R; try contradiction.
  exists ps, st', r. split; [reflexivity|]. split; [exact R|]. split; [reflexivity|].
  destruct (st' "is_title_suppressed") as [[]| | | | | | | |]; try contradiction. reflexivity.
Qed.
Print Assumptions C46_table_style_old_refuted.
(** A cell style makes the reader take the next object's first pair: that object is then lost. *)
Theorem C46_table_style_cells_refuted : exists ps b, write_tstyle R2010 style_item [cell_default] = Ok ps /\
  read_tstyle (map Ok ps ++ after ++ [Ok (new_str 5 (str "1"))]) = Ok b /\
  snd (fst b) = [cell_default] /\ snd b = [] /\ fst (fst b) "common.handle" = FHandle 1.
Proof.
  apply (both_run _ (fun ps => read_tstyle (map Ok ps ++ after ++ [Ok (new_str 5 (str "1"))]))
    (fun b => snd (fst b) = _ /\ snd b = _ /\ fst (fst b) "common.handle" = FHandle 1)). vm_compute. auto.
Qed.
Print Assumptions C46_table_style_cells_refuted.

(** ** Spatial filters *)
Definition matrices : list string := ["inverse_transformation_matrix"; "transformation_matrix"].
Lemma spatial_checked : every [obj_spatial_filter] (checked (fun _ _ => false) (fun _ _ => matrices)) = true.
Proof. vm_compute. reflexivity. Qed.
(** Everything but the two matrices comes back (for those see C42). *)
Theorem C46_spatial_filter_partial : forall v item rest, supported (it_spec obj_spatial_filter) v = true -> well_typed obj_spatial_filter item -> next_item rest ->
  exists ps st, write_item (it_spec obj_spatial_filter) v true item = Ok ps /\ read_spatial (map Ok ps ++ rest) = Ok (Some st, rest) /\
    forall f, In f (it_fields obj_spatial_filter) -> f_public f = true -> ~ In (f_name f) matrices ->
      (stored v true item f -> same (st (f_name f)) (kept v f (item (f_name f)))) /\
      (~ stored v true item f -> same (st (f_name f)) (default_of (it_spec obj_spatial_filter) (f_name f))).
Proof.
  intros v item rest Hs Hty Hr.
  destruct (checked_sound _ _ obj_spatial_filter v (every_sound _ _ spatial_checked _ v (or_introl eq_refl)) Hs eq_refl true item Hty) as (ps & st & W & R & F). specialize (R rest Hr).
  exists ps, (spatial_finish st). split; [exact W|]. split; [unfold read_spatial; rewrite R; reflexivity|].
  intros f Hf Hp Hn. assert (E : spatial_finish st (f_name f) = st (f_name f)); [|rewrite E; exact (F f Hf Hp Hn)].
  unfold spatial_finish. cbn [matrices In] in Hn.
  assert (N1 : f_name f <> "inverse_transformation_matrix") by (intros X; apply Hn; left; symmetry; exact X).
  assert (N2 : f_name f <> "transformation_matrix") by (intros X; apply Hn; right; left; symmetry; exact X).
  destruct (later_matrix _ _ _); rewrite ?upd_ne by exact N2; destruct (Nat.leb 12 _); rewrite ?upd_ne by exact N1; reflexivity.
Qed.
Print Assumptions C46_spatial_filter_partial.
Definition filter_item : store := item_with obj_spatial_filter
  [("common.handle", FHandle 66); ("clip_boundary_definition_points", FList [FList [FF64 three; FF64 0; FF64 0]; FList [FF64 0; FF64 three; FF64 0]]);
   ("is_clip_boundary_enabled", FBool true); ("front_clipping_plane_distance", FF64 three);
   ("transformation_matrix", FList (map FF64 [4607182418800017408; 0; 0; three; 0; 4607182418800017408; 0; three; 0; 0; 4607182418800017408; three; 0; 0; 0; 4607182418800017408]%N))].
Example C46_spatial_filter_case : well_typed obj_spatial_filter filter_item.
Proof. apply typedb_sound. vm_compute. reflexivity. Qed.
(** A matrix that moves by (3, 3, 3) does not come back. *)
Theorem C46_spatial_filter_refuted : exists ps b, write_item (it_spec obj_spatial_filter) R2000 true filter_item = Ok ps /\
  read_spatial (map Ok ps ++ after) = Ok b /\ exists st, fst b = Some st /\ st "transformation_matrix" <> filter_item "transformation_matrix".
Proof.
  destruct (both_run (write_item (it_spec obj_spatial_filter) R2000 true filter_item) (fun ps => read_spatial (map Ok ps ++ after))
    (fun b => match fst b with Some st => sameb (st "transformation_matrix") (filter_item "transformation_matrix") = false | None => False end))
    as (ps & b & W & R & P); [vm_compute; reflexivity|]. exists ps, b. split; [exact W|]. split; [exact R|].
  destruct (fst b) as [st|]; [|contradiction]. exists st. split; [reflexivity|]. intros E. rewrite E in P. vm_compute in P. discriminate P.
Qed.
Print Assumptions C46_spatial_filter_refuted.
(** What is written for the two matrices: the first three rows of each, column by column, the inverse first, before the extended data. *)
Theorem C46_spatial_filter_matrices_written : forall v wh item a b ps,
  item "inverse_transformation_matrix" = FList (map FF64 (matrix_values a)) -> item "transformation_matrix" = FList (map FF64 (matrix_values b)) ->
  write_item (it_spec obj_spatial_filter) v wh item = Ok ps ->
  exists p, ps = p ++ map (fun x => mk_pair 40 (VDouble x))
      ([m11 a; m21 a; m31 a; m12 a; m22 a; m32 a; m13 a; m23 a; m33 a; m14 a; m24 a; m34 a] ++
       [m11 b; m21 b; m31 b; m12 b; m22 b; m32 b; m13 b; m23 b; m33 b; m14 b; m24 b; m34 b]) ++ flat_map (fun x => match x with FXd d => write_xdata v d | _ => [] end) (as_list (item "common.x_data")).
Proof.
  intros v wh item a b ps Ha Hb H. unfold write_item, obj_spatial_filter in H. cbn [it_spec sp_cmds] in H. rewrite write_cmds_app in H.
  destruct (write_cmds v wh item ocommon_cmds) as [c|]; cbn [bind] in H; [|discriminate H].
  set (last := [WPick [] 40 "inverse_transformation_matrix" matrix_order; WPick [] 40 "transformation_matrix" matrix_order; WXdatas [] "common.x_data"]) in *.
  assert (W : write_cmds v wh item last = Ok (map (fun x => mk_pair 40 (VDouble x))
      ([m11 a; m21 a; m31 a; m12 a; m22 a; m32 a; m13 a; m23 a; m33 a; m14 a; m24 a; m34 a] ++
       [m11 b; m21 b; m31 b; m12 b; m22 b; m32 b; m13 b; m23 b; m33 b; m14 b; m24 b; m34 b]) ++
     flat_map (fun x => match x with FXd d => write_xdata v d | _ => [] end) (as_list (item "common.x_data")))).
  { unfold last. cbn [write_cmds]. unfold write_cmd. cbn [cmd_conds forallb write_body]. rewrite Ha, Hb. destruct a, b. cbn. rewrite app_nil_r. reflexivity. }
  match type of H with context [write_cmds v wh item ?l] => change l with (removelast (removelast (removelast l)) ++ last) in H end.
  rewrite write_cmds_app, W in H. match type of H with context [write_cmds v wh item ?l] => destruct (write_cmds v wh item l) as [m|] end; cbn [bind] in H; [|discriminate H].
  injection H as <-. exists (c ++ m). rewrite <- app_assoc. reflexivity.
Qed.
Print Assumptions C46_spatial_filter_matrices_written.
Example C46_spatial_filter_matrices_written_case : exists ps, write_item (it_spec obj_spatial_filter) R2000 true filter_item = Ok ps /\
  filter_item "inverse_transformation_matrix" = FList (map FF64 (matrix_values matrix_identity)).
Proof. destruct (write_item (it_spec obj_spatial_filter) R2000 true filter_item) as [ps|] eqn:E; [exists ps; split; reflexivity|vm_compute in E; discriminate E]. Qed.

(** ** Sun studies *)
Lemma sun_checked : every [obj_sun_study] (checked (fun _ _ => false) (fun _ _ => [])) = true.
Proof. vm_compute. reflexivity. Qed.
Definition date_words_field : field := mk_field "date_words" (KList (KInt (-2147483648) 2147483647)) true [90] [mk_win None None false None] [].
Lemma sun_windows v wh item item' f : In f (it_fields obj_sun_study) -> stored v wh item f -> stored v wh item' f.
Proof.
  intros Hf (w & Hw & W1 & W2 & W3 & W4). exists w. split; [exact Hw|]. unfold window_applies. split; [exact W1|]. split; [exact W2|]. split; [exact W3|].
  assert (E : forallb (fun f => forallb (fun w => match w_when w with None => true | _ => false end) (f_windows f)) (it_fields obj_sun_study) = true)
    by (vm_compute; reflexivity).
  rewrite forallb_forall in E. specialize (E f Hf). rewrite forallb_forall in E. specialize (E w Hw). destruct (w_when w); [discriminate E|exact Logic.I].
Qed.
(** A sun study without dates comes back ([date_words] is not a field of the code, it is the numbers that stand for the dates). *)
Theorem C46_sun_study_partial : forall v item rest, supported (it_spec obj_sun_study) v = true -> well_typed obj_sun_study item -> item "dates" = FList [] ->
  next_item rest -> exists ps st, write_sun v item = Ok ps /\ read_sun (map Ok ps ++ rest) = Ok (Some st, rest) /\ st "dates" = FList [] /\
    forall f, In f (it_fields obj_sun_study) -> f_public f = true -> f_name f <> "date_words" ->
      (stored v true item f -> same (st (f_name f)) (kept v f (item (f_name f)))) /\
      (~ stored v true item f -> same (st (f_name f)) (default_of (it_spec obj_sun_study) (f_name f))).
Proof.
  intros v item rest Hs Hty Hd Hr. set (item' := upd item "date_words" (FList [])).
  assert (Hty' : well_typed obj_sun_study item').
  { intros f Hf. destruct (string_dec (f_name f) "date_words") as [E|E].
    - unfold item'. rewrite E, upd_eq. assert (Hk : f = date_words_field).
      { cbn in Hf. repeat (destruct Hf as [<-|Hf]; [first [discriminate E|reflexivity]|]). destruct Hf. }
      rewrite Hk. split; [exists []; split; [reflexivity|constructor]|]. repeat constructor.
    - unfold item'. rewrite upd_ne by exact E. exact (Hty f Hf). }
  destruct (checked_sound _ _ obj_sun_study v (every_sound _ _ sun_checked _ v (or_introl eq_refl)) Hs eq_refl true item' Hty') as (ps & st & W & R & F). specialize (R rest Hr).
  assert (Hw : st "date_words" = FList []).
  { destruct (F (date_words_field)) as [F1 _]; [cbn; tauto|reflexivity|intros []|].
    assert (G : stored v true item' (date_words_field)) .
    { eexists. split; [left; reflexivity|]. unfold window_applies. cbn. intuition discriminate. }
    specialize (F1 G). change (same (st "date_words") (FList [])) in F1. clear -F1. remember (st "date_words") as x eqn:Ex. clear Ex.
    remember (FList []) as y eqn:Ey. destruct F1 as [|d e _ _|l m Hf]; [reflexivity|discriminate Ey|]. injection Ey as ->. inversion Hf. reflexivity. }
  exists ps, (upd st "dates" (FList [])). split; [|split; [|split]].
  - unfold write_sun. rewrite Hd. exact W.
  - unfold read_sun. rewrite R. cbn [bind]. unfold sun_finish. rewrite Hw. reflexivity.
  - apply upd_eq.
  - intros f Hf Hp Hn. assert (Hn' : f_name f <> "dates").
    { intros E. cbn in Hf. repeat (destruct Hf as [<-|Hf]; [discriminate E|]). destruct Hf. }
    rewrite upd_ne by exact Hn'. destruct (F f Hf Hp (fun x => x)) as [F1 F2]. unfold item' in F1. rewrite upd_ne in F1 by exact Hn. split.
    + intros G. apply F1. exact (sun_windows v true item _ f Hf G).
    + intros G. apply F2. intros G2. apply G. exact (sun_windows v true _ item f Hf G2).
Qed.
Print Assumptions C46_sun_study_partial.
Definition study_item : store := item_with obj_sun_study
  [("common.handle", FHandle 66); ("sun_setup_name", FStr (str "n")); ("hours", FList [FInt 7; FInt 19]); ("spacing", FF64 three); ("use_subset", FBool true)].
Example C46_sun_study_case : well_typed obj_sun_study study_item /\ study_item "dates" = FList [] /\
  match write_sun R2013 study_item with Ok ps => length ps = 29%nat | _ => False end.
Proof. split; [apply typedb_sound; vm_compute; reflexivity|]. split; vm_compute; reflexivity. Qed.
(** One date is lost; of two dates, a wrong one comes back. *)
Theorem C46_sun_study_dates_refuted :
  (exists ps b, write_sun R2013 (upd study_item "dates" (FList [FInt 86400])) = Ok ps /\ read_sun (map Ok ps ++ after) = Ok b /\
     exists st, fst b = Some st /\ st "dates" = FList []) /\
  (exists ps b, write_sun R2013 (upd study_item "dates" (FList [FInt 86400; FInt 172800])) = Ok ps /\ read_sun (map Ok ps ++ after) = Ok b /\
     exists st z, fst b = Some st /\ st "dates" = FList [FInt z]).
Proof.
  split.
  - destruct (both_run (write_sun R2013 (upd study_item "dates" (FList [FInt 86400]))) (fun ps => read_sun (map Ok ps ++ after))
      (fun b => match fst b with Some st => st "dates" = FList [] | None => False end)) as (ps & b & W & R & P); [vm_compute; reflexivity|].
    exists ps, b. split; [exact W|]. split; [exact R|]. destruct (fst b) as [st|]; [|contradiction]. eauto.
  - destruct (both_run (write_sun R2013 (upd study_item "dates" (FList [FInt 86400; FInt 172800]))) (fun ps => read_sun (map Ok ps ++ after))
      (fun b => match fst b with Some st => match st "dates" with FList [FInt _] => True | _ => False end | None => False end))
      as (ps & b & W & R & P); [vm_compute; exact Logic.I|].
    exists ps, b. split; [exact W|]. split; [exact R|]. destruct (fst b) as [st|]; [|contradiction].
    destruct (st "dates") as [| | | | | | | |[|[] []]] eqn:E; try contradiction. eauto.
Qed.
Print Assumptions C46_sun_study_dates_refuted.
