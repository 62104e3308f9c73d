(** Reading dictionaries, whoever wrote them (C45). *)
From Verif Require Import Base CodePairModel CodePairSpec SpecModel DocSpec CustomModel DictSpec DictProofs.
Open Scope string_scope.
Open Scope list_scope.
Open Scope Z_scope.
Set Default Goal Selector "!".

(** Every name refers to the last handle given for it, under 350 or 360 alike and whatever stands between the name and the handle; other names are not in the dictionary. *)
Theorem C45_reading_dictionaries ps nx rest st d r : plain ps -> p_code nx = 0 -> read_dict (map Ok ps ++ Ok nx :: rest) = Ok (st, d, r) -> r = Ok nx :: rest /\
  forall k, match given k [] ps with
            | Some v => exists h, get_entry k (di_values d) = Some h /\ forall h', understood Hex v = Some (FHandle h') -> h = h'
            | None => get_entry k (di_values d) = None
            end.
Proof.
  intros P Z H. unfold read_dict in H. destruct (next_loop _ _ _ _) as [[[[st1 d1] n1] r1]|] eqn:E; cbn [bind] in H; [|discriminate H]. injection H as <- <- <-.
  split; [exact (proj1 (loop_answers _ _ _ [] dict_entry_step Z _ _ _ _ _ _ _ _ _ P E))|]. intros k. exact (proj2 (loop_answers _ _ _ k dict_entry_step Z _ _ _ _ _ _ _ _ _ P E)).
Qed.
Print Assumptions C45_reading_dictionaries.
Theorem C45_reading_dictionaries_with_default ps nx rest st d r : plain ps -> p_code nx = 0 -> read_dictd (map Ok ps ++ Ok nx :: rest) = Ok (st, d, r) -> r = Ok nx :: rest /\
  forall k, match given k [] ps with
            | Some v => exists h, get_entry k (di_values d) = Some h /\ forall h', understood Hex v = Some (FHandle h') -> h = h'
            | None => get_entry k (di_values d) = None
            end.
Proof.
  intros P Z H. unfold read_dictd in H. destruct (next_loop _ _ _ _) as [[[[st1 d1] n1] r1]|] eqn:E; cbn [bind] in H; [|discriminate H]. injection H as <- <- <-.
  split; [exact (proj1 (loop_answers _ _ _ [] dictd_entry_step Z _ _ _ _ _ _ _ _ _ P E))|]. intros k. exact (proj2 (loop_answers _ _ _ k dictd_entry_step Z _ _ _ _ _ _ _ _ _ P E)).
Qed.
Print Assumptions C45_reading_dictionaries_with_default.
(** One name twice, soft and hard owners, a pair between a name and its handle. *)
Definition dict_pairs : list pair :=
  [mk_pair 5 (VStr (str "C")); mk_pair 100 (VStr (str "AcDbDictionary")); mk_pair 281 (VShort 1); mk_pair 3 (VStr (str "ACAD_GROUP")); mk_pair 350 (VStr (str "D")); mk_pair 3 (VStr (str "ACAD_LAYOUT"));
   mk_pair 999 (VStr (str "between")); mk_pair 360 (VStr (str "1A")); mk_pair 3 (VStr (str "ACAD_GROUP")); mk_pair 350 (VStr (str "2F"))].
Definition dict_end : pair := mk_pair 0 (VStr (str "ENDSEC")).
Example C45_reading_dictionaries_ex : plain dict_pairs /\ map (fun k => given (str k) [] dict_pairs) ["ACAD_GROUP"; "ACAD_LAYOUT"; "ACAD_COLOR"] = [Some (VStr (str "2F")); Some (VStr (str "1A")); None] /\
  match read_dict (map Ok dict_pairs ++ [Ok dict_end]) with Ok (st, d, r) => (map (fun k => get_entry (str k) (di_values d)) ["ACAD_GROUP"; "ACAD_LAYOUT"; "ACAD_COLOR"], length (di_values d), st "common.handle") | _ => ([], O, FInt 0) end
    = ([Some 0x2F; Some 0x1A; None]%N, 2%nat, FHandle 12) /\
  match read_dictd (map Ok (mk_pair 340 (VStr (str "F")) :: dict_pairs) ++ [Ok dict_end]) with Ok (st, d, r) => (map (fun k => get_entry (str k) (di_values d)) ["ACAD_GROUP"; "ACAD_LAYOUT"; "ACAD_COLOR"], di_default d) | _ => ([], 0%N) end
    = ([Some 0x2F; Some 0x1A; None]%N, 15%N).
Proof. split; [repeat constructor; cbn; lia|]. split; [reflexivity|]. split; vm_compute; reflexivity. Qed.
(** The flags and handles of a dictionary are those of the last pair with their code. *)
Theorem C45_reading_dictionary_fields ps nx rest st d r : plain ps -> p_code nx = 0 -> read_dict (map Ok ps ++ Ok nx :: rest) = Ok (st, d, r) ->
  last_said (last_under 280 ps) false (di_hard d) as_flag /\ last_said (last_under 281 ps) 0 (di_dup d) as_choice /\
  last_said (last_under 5 ps) (FHandle 0) (st "common.handle") as_slot /\ last_said (last_under 330 ps) (FHandle 0) (st "common.__owner_handle") as_slot.
Proof.
  intros P Z H. unfold read_dict in H. destruct (next_loop _ _ _ _) as [[[[st1 d1] n1] r1]|] eqn:E; cbn [bind] in H; [|discriminate H]. injection H as <- <- <-. unfold last_under.
  split; [refine (loop_last _ _ _ _ _ _ _ dict_hard Z _ _ _ _ _ _ _ _ _ None P _ E); reflexivity|]. split; [refine (loop_last _ _ _ _ _ _ _ dict_dup Z _ _ _ _ _ _ _ _ _ None P _ E); reflexivity|].
  split; refine (loop_last _ _ _ _ _ _ _ (dict_slot _ _ _) Z _ _ _ _ _ _ _ _ _ None P _ E); first [reflexivity|cbn; tauto].
Qed.
Print Assumptions C45_reading_dictionary_fields.
Theorem C45_reading_dictionary_default ps nx rest st d r : plain ps -> p_code nx = 0 -> read_dictd (map Ok ps ++ Ok nx :: rest) = Ok (st, d, r) ->
  last_said (last_under 340 ps) 0%N (di_default d) as_hex /\ last_said (last_under 281 ps) 0 (di_dup d) as_choice /\
  last_said (last_under 5 ps) (FHandle 0) (st "common.handle") as_slot /\ last_said (last_under 330 ps) (FHandle 0) (st "common.__owner_handle") as_slot.
Proof.
  intros P Z H. unfold read_dictd in H. destruct (next_loop _ _ _ _) as [[[[st1 d1] n1] r1]|] eqn:E; cbn [bind] in H; [|discriminate H]. injection H as <- <- <-. unfold last_under.
  split; [refine (loop_last _ _ _ _ _ _ _ dictd_default Z _ _ _ _ _ _ _ _ _ None P _ E); reflexivity|]. split; [refine (loop_last _ _ _ _ _ _ _ dictd_dup Z _ _ _ _ _ _ _ _ _ None P _ E); reflexivity|].
  split; refine (loop_last _ _ _ _ _ _ _ (dictd_slot _ _ _) Z _ _ _ _ _ _ _ _ _ None P _ E); first [reflexivity|cbn; tauto].
Qed.
Print Assumptions C45_reading_dictionary_default.
Example C45_reading_dictionary_fields_ex : map (fun c => last_under c dict_pairs) [280; 281; 5; 330] = [None; Some (VShort 1); Some (VStr (str "C")); None] /\
  match read_dict (map Ok (mk_pair 280 (VShort 1) :: dict_pairs) ++ [Ok dict_end]) with Ok (st, d, _) => (di_hard d, di_dup d, st "common.handle", st "common.__owner_handle") | _ => (false, 0, FInt 0, FInt 0) end = (true, 1, FHandle 12, FHandle 0) /\
  match read_dictd (map Ok (mk_pair 340 (VStr (str "F")) :: mk_pair 330 (VStr (str "A")) :: dict_pairs) ++ [Ok dict_end]) with Ok (st, d, _) => (di_default d, di_dup d, st "common.__owner_handle") | _ => (0%N, 0, FInt 0) end = (15%N, 1, FHandle 10).
Proof. split; [reflexivity|]. split; vm_compute; reflexivity. Qed.
