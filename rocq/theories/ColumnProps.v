(** Reading name, version, counts and column names of data tables, whoever wrote them (C46). *)
From Verif Require Import Base CodePairModel SpecModel DocSpec CustomModel DictSpec ColumnSpec ColumnProofs.
Open Scope string_scope.
Open Scope list_scope.
Open Scope Z_scope.
Set Default Goal Selector "!".

(** Whatever the order of the pairs: the name is the last 1, the version the last 70, the counts are the last 90 and 91, and the column names all the 2, in their order; nothing of the next item is read.
    Groups (102) and extended data (1001), which take pairs of their own, are left out. *)
Theorem C46_reading_data_tables ps nx rest st d r : Forall (fun p => p_code p <> 0 /\ p_code p <> 102 /\ p_code p <> 1001) ps -> p_code nx = 0 ->
  read_dtable (map Ok ps ++ Ok nx :: rest) = Ok (st, d, r) ->
  r = Ok nx :: rest /\ last_said (last_under 1 ps) [] (dt_name d) as_text /\ last_said (last_under 70 ps) 0 (dt_field d) as_short /\
  last_said (last_under 90 ps) 0%N (dt_cols d) as_count /\ last_said (last_under 91 ps) 0%N (dt_rows d) as_count /\
  map VStr (dt_names d) = map p_value (filter (fun p => p_code p =? 2) ps).
Proof.
  intros W Z H. unfold read_dtable in H. destruct (next_loop _ _ _ _) as [[[[st1 d1] l1] r1]|] eqn:E; cbn [bind fst] in H; [|discriminate H]. injection H as <- <- <-.
  refine (loop_heads nx rest Z ps _ _ _ _ _ _ _ _ None None None None [] W E _). repeat split.
Qed.
Print Assumptions C46_reading_data_tables.
Definition t_pairs : list pair := [mk_pair 5 (VStr (str "2A")); mk_pair 100 (VStr (str "AcDbDataTable")); mk_pair 70 (VShort 2); mk_pair 90 (VInt 3); mk_pair 91 (VInt 1); mk_pair 1 (VStr (str "T"));
  mk_pair 92 (VInt 93); mk_pair 2 (VStr (str "A")); mk_pair 93 (VInt 7); mk_pair 92 (VInt 3); mk_pair 2 (VStr (str "B")); mk_pair 3 (VStr (str "x"))].
Example C46_reading_data_tables_ex : Forall (fun p => p_code p <> 0 /\ p_code p <> 102 /\ p_code p <> 1001) t_pairs /\
  match read_dtable (map Ok t_pairs ++ [Ok (mk_pair 0 (VStr (str "ENDSEC")))]) with
  | Ok (st, d, r) => (dt_name d, dt_field d, dt_cols d, dt_rows d, dt_names d, length r) | _ => ([], 0, 0%N, 0%N, [], O) end = (str "T", 2, 3%N, 1%N, [str "A"; str "B"], 1%nat).
Proof. split; [repeat constructor; cbn; lia|vm_compute; reflexivity]. Qed.
