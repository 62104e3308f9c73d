(** The rows of the data tables that are read, whoever wrote them (C46). *)
From Verif Require Import Base CodePairModel SpecModel CustomModel RowProofs.
Open Scope string_scope.
Open Scope list_scope.
Open Scope Z_scope.
Set Default Goal Selector "!".

(** How far the loss shown by C46_data_table_values_refuted goes: in every data table that is read, from any file, all rows but the first are empty. *)
Theorem C46_data_table_first_row_only it st d r : read_dtable it = Ok (st, d, r) ->
  forall row cells col x, nth_error (dt_values d) (S row) = Some cells -> nth_error cells col = Some x -> x = None.
Proof.
  intros H row cells col x R X. unfold read_dtable in H. destruct (next_loop _ _ _ _) as [[[[st1 d1] l1] r1]|] eqn:E; cbn [bind fst] in H; [|discriminate H]. injection H as <- <- <-.
  assert (blank d1) as B by (refine (loop_blank _ _ _ _ _ _ _ _ _ E _); constructor). unfold blank in B. destruct (dt_values d1) as [|c cs]; [discriminate R|]. cbn [nth_error tl] in R, B.
  apply nth_error_In in R. apply nth_error_In in X. exact (proj1 (Forall_forall _ _) (proj1 (Forall_forall _ _) B _ R) _ X).
Qed.
Print Assumptions C46_data_table_first_row_only.
(** Two columns and two rows; column 1 holds 7 and 8: the second value replaces the first. *)
Example C46_data_table_first_row_only_ex :
  match read_dtable (map Ok [mk_pair 90 (VInt 2); mk_pair 91 (VInt 2); mk_pair 1 (VStr (str "T")); mk_pair 92 (VInt 93); mk_pair 2 (VStr (str "A")); mk_pair 93 (VInt 7); mk_pair 93 (VInt 8)] ++ [Ok (mk_pair 0 (VStr (str "ENDSEC")))]) with
  | Ok (st, d, r) => (dt_values d, length r) | _ => ([], O) end = ([[None; Some (DInt 8)]; [None; None]], 1%nat).
Proof. vm_compute. reflexivity. Qed.
