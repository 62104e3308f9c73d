(** Properties C16, C17 and C18. *)
From Verif Require Import Base TextModel CodePairModel StreamModel StreamSpec ExtDataModel ExtDataSpec ExtDataProofs.

(** C16. What is missing for the full claim: groups without items (refuted below). *)
Theorem C16_extension_groups_roundtrip_partial : forall g rest,
  eg_items g <> [] -> Forall storable (eg_items g) ->
  exists body, write_ext_group g = group_open (eg_name g) :: body /\
    read_ext_group (str "{" ++ eg_name g) (visible (map Ok body ++ rest)) = Ok (g, visible rest).
Proof. exact ext_roundtrip. Qed.
Print Assumptions C16_extension_groups_roundtrip_partial.

Definition demo_group : ext_group :=
  mk_ext (str "ACAD_REACTORS")
    [EPair (mk_pair 330 (VStr (str "1F"))); EGroup (str "INNER") [EPair (mk_pair 1 (VStr (str "}"))); EPair (mk_pair 40 (VDouble 0))];
     EPair (mk_pair 330 (VStr (str "20")))].
Example C16_case : eg_items demo_group <> [] /\ Forall storable (eg_items demo_group) /\
  map p_code (write_ext_group demo_group) = [102; 330; 102; 1; 40; 102; 330; 102]%Z.
Proof. split; [discriminate|split; [|reflexivity]]. repeat constructor; discriminate. Qed.

(** A group without items is not written, so it is lost. *)
Theorem C16_empty_group_refuted : exists g,
  exists body, write_ext_group g = group_open (eg_name g) :: body /\
    exists g', read_ext_group (str "{" ++ eg_name g) (map Ok body) = Ok (g', []) /\ g' <> g.
Proof.
  exists (mk_ext (str "A") [EPair (mk_pair 330 (VStr (str "1F"))); EGroup (str "B") []]).
  eexists. split; [reflexivity|]. eexists. split; [vm_compute; reflexivity|discriminate].
Qed.
Print Assumptions C16_empty_group_refuted.

(** C17. *)
Theorem C17_extended_data_roundtrip : forall v x rest,
  version_leb R2000 v = true -> Forall x_wf (xd_items x) -> outside_xdata rest ->
  exists body, write_xdata v x = mk_pair 1001 (VStr (xd_name x)) :: body /\
    read_xdata (xd_name x) (map Ok body ++ rest) = Ok (x, rest).
Proof. exact xdata_roundtrip. Qed.
Print Assumptions C17_extended_data_roundtrip.

Theorem C17_not_written_before_r2000 : forall v x, version_leb R2000 v = false -> write_xdata v x = [].
Proof. exact xdata_old. Qed.
Print Assumptions C17_not_written_before_r2000.

(** Extended data uses only the codes 1000 to 1071, and only the application name uses 1001, so it cannot be
    mistaken for anything else. *)
Theorem C17_codes : forall v x name body, write_xdata v x = name :: body ->
  p_code name = 1001%Z /\ Forall (fun p => xdata_code (p_code p) = true /\ p_code p <> 1001%Z) body.
Proof.
  intros v x name body H. unfold write_xdata in H. destruct (version_leb R2000 v); [|discriminate H].
  injection H as <- <-. split; [reflexivity|]. induction (xd_items x) as [|i l IH]; [constructor|].
  apply Forall_app. split; [apply xdata_codes|exact IH].
Qed.
Print Assumptions C17_codes.

Definition demo_xdata : xdata :=
  mk_xdata (str "APP") [XStr (str "}"); XControl [XControl []; XThree 1 2 3; XBinary [0; 255]]; XHandle 0x1F; XInteger (-3); XLong 70000]%N.
Example C17_case : Forall x_wf (xd_items demo_xdata) /\ outside_xdata [Ok (mk_pair 0 (VStr (str "LINE")))] /\
  map p_code (write_xdata R2000 demo_xdata) = [1001; 1000; 1002; 1002; 1002; 1010; 1020; 1030; 1004; 1002; 1005; 1070; 1071]%Z.
Proof. split; [|split; [right; reflexivity|reflexivity]]. repeat (constructor; try exact I; try reflexivity). Qed.

(** C18. Reading succeeds exactly on a name that starts with a brace followed by pairs in which all braces
    are balanced up to the closing one; the value is determined by those pairs and the rest is untouched. *)
Theorem C18_success_means_complete : forall name source g rest,
  read_ext_group name source = Ok (g, rest) <->
  exists body, name = str "{" ++ eg_name g /\ renders (eg_items g) body /\ source = map Ok body ++ Ok group_close :: rest.
Proof. exact read_group_spec. Qed.
Print Assumptions C18_success_means_complete.

Theorem C18_not_opened_is_an_error : forall name source, (forall n, name <> str "{" ++ n) ->
  exists e, read_ext_group name source = Err e.
Proof. exact ext_not_opened. Qed.
Print Assumptions C18_not_opened_is_an_error.

(** A group cut off anywhere before its closing brace. *)
Theorem C18_cut_off_is_an_error : forall name body items cut missing,
  renders items body -> map Ok body ++ [Ok group_close] = cut ++ missing -> missing <> [] ->
  exists e, read_ext_group name cut = Err e.
Proof. exact ext_prefix_error. Qed.
Print Assumptions C18_cut_off_is_an_error.

(** The same for an item of extended data (a point or a control group) cut off in the middle. *)
Theorem C18_cut_off_xdata_is_an_error : forall name before i p cut missing,
  Forall x_wf before -> x_wf i -> map Ok (write_xitem i) = Ok p :: cut ++ missing -> missing <> [] ->
  exists e, read_xdata name (map Ok (flat_map write_xitem before) ++ Ok p :: cut) = Err e.
Proof. exact xdata_cut. Qed.
Print Assumptions C18_cut_off_xdata_is_an_error.

(** The model's recursion bound is never reached. *)
Theorem C18_reading_groups_terminates : forall name source, Forall (fun x => x <> Err OutOfFuel) source ->
  read_ext_group name source <> Err OutOfFuel.
Proof. exact ext_no_fuel. Qed.
Print Assumptions C18_reading_groups_terminates.

Example C18_case :
  read_ext_group (str "{A") [Ok (mk_pair 1 (VStr (str "x"))); Ok (mk_pair 102 (VStr (str "{B")))] = Err UnexpectedEndOfInput /\
  read_ext_group (str "A") [Ok group_close] = Err (ParseError 0) /\
  read_xdata (str "A") [Ok (mk_pair 1002 (VStr (str "{"))); Ok (mk_pair 1000 (VStr (str "x")))] = Err UnexpectedEndOfInput /\
  read_xdata (str "A") [Ok (mk_pair 1010 (VDouble 0)); Ok (mk_pair 0 (VStr (str "LINE")))] = Err (UnexpectedCode 0 0).
Proof. repeat split. Qed.
