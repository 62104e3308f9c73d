(** Reading x-records, whoever wrote them (C46). *)
From Verif Require Import Base CodePairModel SpecModel DocSpec CustomModel DictSpec XrecProofs.
Open Scope string_scope.
Open Scope list_scope.
Open Scope Z_scope.
Set Default Goal Selector "!".

(** Handle and owner, then a marker (100) or the rule for duplicates (280): all pairs behind it, up to the next item, are the data, unchanged and in their order. *)
Theorem C46_reading_xrecords head mark data nx rest st x r : Forall (fun p => p_code p = 5 \/ p_code p = 330) head -> p_code mark = 100 \/ p_code mark = 280 -> Forall (fun p => p_code p <> 0) data -> p_code nx = 0 ->
  read_xrec (map Ok (head ++ mark :: data) ++ Ok nx :: rest) = Ok (st, x, r) ->
  r = Ok nx :: rest /\ xr_pairs x = data /\ (p_code mark = 100 -> xr_dup x = 0) /\ (p_code mark = 280 -> as_choice (p_value mark) (xr_dup x)) /\
  last_said (last_under 5 head) (FHandle 0) (st "common.handle") as_slot /\ last_said (last_under 330 head) (FHandle 0) (st "common.__owner_handle") as_slot.
Proof.
  intros Hh M D Z H. unfold read_xrec in H. destruct (next_loop _ _ _ _) as [[a r1]|] eqn:E; cbn [bind] in H; [|discriminate H]. injection H as H1 <-.
  destruct (head_read _ _ _ _ Z M D _ _ _ _ _ Hh E) as (R & st' & x' & -> & X1 & X2 & X3 & X4). cbn [fst] in H1. injection H1 as <- <-. split; [exact R|]. split; [exact X1|]. split; [exact X2|]. split; [exact X3|]. unfold last_under.
  split; apply X4; first [reflexivity|cbn; tauto].
Qed.
Print Assumptions C46_reading_xrecords.
Definition x_head : list pair := [mk_pair 5 (VStr (str "2A")); mk_pair 330 (VStr (str "C"))].
Definition x_data : list pair := [mk_pair 1 (VStr (str "one")); mk_pair 102 (VStr (str "{A")); mk_pair 280 (VShort 7); mk_pair 330 (VStr (str "F")); mk_pair 1001 (VStr (str "B"))].
Example C46_reading_xrecords_ex : Forall (fun p => p_code p = 5 \/ p_code p = 330) x_head /\ Forall (fun p => p_code p <> 0) x_data /\
  match read_xrec (map Ok (x_head ++ mk_pair 280 (VShort 1) :: x_data) ++ [Ok (mk_pair 0 (VStr (str "ENDSEC")))]) with
  | Ok (st, x, r) => (st "common.handle", st "common.__owner_handle", xr_dup x, xr_pairs x, length r) | _ => (FInt 0, FInt 0, 0, [], O) end = (FHandle 42, FHandle 12, 1, x_data, 1%nat).
Proof. split; [repeat constructor; cbn; tauto|]. split; [repeat constructor; cbn; lia|vm_compute; reflexivity]. Qed.
(** The files of the reference have the marker and then the rule; the rule becomes the first of the data (see C46_xrecord_data_partial). *)
Theorem C46_xrecord_rule_refuted : exists ps st x r, ps = x_head ++ [mk_pair 100 (VStr (str "AcDbXrecord")); mk_pair 280 (VShort 1); mk_pair 1 (VStr (str "one"))] /\
  read_xrec (map Ok ps ++ [Ok (mk_pair 0 (VStr (str "ENDSEC")))]) = Ok (st, x, r) /\ xr_dup x = 0 /\ xr_pairs x = [mk_pair 280 (VShort 1); mk_pair 1 (VStr (str "one"))].
Proof. do 4 eexists. split; [reflexivity|]. split; [vm_compute; reflexivity|]. split; reflexivity. Qed.
Print Assumptions C46_xrecord_rule_refuted.
