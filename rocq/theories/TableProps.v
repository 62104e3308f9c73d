(** C31: the entries of the nine symbol tables. *)
From Verif Require Import Base TextModel CodePairModel VersionModel ExtDataModel SpecModel SpecSpec SpecCheck SpecProofs SpecCoverProofs SpecWitness
  EnumData TableData.
Open Scope Z_scope.
Local Open Scope string_scope.
Set Default Goal Selector "!".

(** The only field that does not survive: the owner, which is read (code 330) but never written. *)
Definition table_lost : list string := ["__owner_handle"].

Lemma tables_checked : every tables (fun t v => check_item t v true table_lost && check_item t v false table_lost) = true.
Proof. vm_compute. reflexivity. Qed.
Lemma tables_survive t v : In t tables -> survives t v table_lost.
Proof.
  intros H. apply check_item_sound. intros wh. pose proof (every_sound _ _ tables_checked t v H) as C. cbn beta in C. apply andb_true_iff in C.
  destruct wh; apply C.
Qed.

(** Every entry of every table, for every version: all stored fields come back with the same value, all others with the
    default. Missing from the full statement: the owner (see below), colours of layers that are not positive (C37), integers that do
    not fit the documented type of their code (C04), characters above 255 in the dimension style's decimal separator (below). *)
Theorem C31_entries_survive_partial : forall t v, In t tables -> survives t v ["__owner_handle"].
Proof. exact tables_survive. Qed.
Print Assumptions C31_entries_survive_partial.

(** A layer and a dimension style with values unlike the defaults. *)
Definition layer_item : store := item_with t_layer
  [("name", FStr (str "walls")); ("handle", FHandle 66); ("color", FInt 5); ("is_layer_on", FBool false);
   ("line_type_name", FStr (str "DASHED")); ("is_layer_plotted", FBool false); ("__plot_style_handle", FHandle 17)].
Example C31_layer_typed : In t_layer tables /\ well_typed t_layer layer_item.
Proof. split; [cbn; tauto|]. apply typedb_sound. vm_compute. reflexivity. Qed.
Example C31_layer_written :
  match write_item (it_spec t_layer) R2000 true layer_item with
  | Ok ps => existsb (fun p => (p_code p =? 62)%Z && match p_value p with VShort z => (z =? -5)%Z | _ => false end) ps &&
      match read_item (it_spec t_layer) (map Ok ps ++ [Ok stop]) with
      | Ok (Some st, _) => sameb (st "color") (FInt 5) && sameb (st "is_layer_on") (FBool false) && sameb (st "line_type_name") (FStr (str "DASHED"))
      | _ => false
      end
  | Err _ => false
  end = true.
Proof. vm_compute. reflexivity. Qed.
(** The number of fields covered, table by table. *)
Example C31_sizes : map (fun t => length (filter f_public (it_fields t))) tables = [5; 9; 68; 18; 12; 12; 21; 41; 72]%nat.
Proof. vm_compute. reflexivity. Qed.

(** The owner of an entry is lost by every table for every version that has owners. *)
Lemma owners_lost : every tables (fun t v => negb (version_leb R13 v) || lostb t v true (item_with t [("__owner_handle", FHandle 7)]) "__owner_handle") = true.
Proof. vm_compute. reflexivity. Qed.
Theorem C31_owner_refuted : forall t v, In t tables -> version_leb R13 v = true -> field_lost t v "__owner_handle".
Proof.
  intros t v Ht Hv. pose proof (every_sound _ _ owners_lost t v Ht) as C. cbn beta in C. rewrite Hv in C. cbn [negb orb] in C.
  exact (lostb_sound _ _ _ _ _ C).
Qed.
Print Assumptions C31_owner_refuted.

(** The decimal separator of a dimension style is a [char] but travels as [{} as u8 as char]: 955 comes back as 187. *)
Definition lambda_item : store := item_with t_dim_style [("dimension_decilam_separator_char", FInt 955)].
Theorem C31_separator_refuted : exists ps st r, write_item (it_spec t_dim_style) R2018 true lambda_item = Ok ps /\
  read_item (it_spec t_dim_style) (map Ok ps ++ [Ok stop]) = Ok (Some st, r) /\ st "dimension_decilam_separator_char" = FInt 187.
Proof. eexists _, _, _. split; [vm_compute; reflexivity|]. split; [vm_compute; reflexivity|]. vm_compute. reflexivity. Qed.
Print Assumptions C31_separator_refuted.

(** 32-bit fields under 16-bit codes are cut: none of them comes back when it does not fit. *)
Lemma wide_cuts : forallb (fun t => wide_cut t (latest t)) tables = true.
Proof. vm_compute. reflexivity. Qed.
Theorem C31_wide_integer_refuted : forall t f, In t tables -> In f (it_fields t) -> wide f = true ->
  storedb (latest t) true (item_with t [(f_name f, FInt 98309)]) f = true -> field_cut t (latest t) (f_name f).
Proof. exact (wide_cuts_sound tables wide_cuts). Qed.
Print Assumptions C31_wide_integer_refuted.
Example C31_wide_case : map (fun t => length (filter (fun f => wide f && storedb (latest t) true (item_with t [(f_name f, FInt 98309)]) f) (it_fields t))) tables =
  [0; 0; 0; 2; 0; 1; 0; 0; 2]%nat.
Proof. vm_compute. reflexivity. Qed.
