(** C60: which drawings can be saved. *)
From Verif Require Import Base TextModel CodePairModel VersionModel StreamModel SpecModel HeaderModel HeaderData HeaderProps DrawingModel FileModel CustomModel SaveModel BytesProps CutProps
  StorableSpec StorableProofs StorableFileProofs StorableLoadProofs.
Open Scope string_scope.
Open Scope list_scope.
Open Scope N_scope.
Set Default Goal Selector "!".

(** A drawing made from files can be saved in both formats, except if it has a data table that is not regular and a version that has data tables; then both panic. *)
Theorem C60_saving_made_drawings : forall d, made d ->
  ((version_leb R2007 (version_in d) = true -> tables_regular d) -> exists a b, save_text d = Ok a /\ save_binary d = Ok b) /\
  (~ (version_leb R2007 (version_in d) = true -> tables_regular d) -> save_text d = Err Panic /\ save_binary d = Err Panic).
Proof.
  intros d M. destruct (drawing_writes d (sound_made d M)) as [A B]. unfold save_text, save_binary. split.
  - intros R. destruct (A R) as [ps ->]. cbn [bind]. eauto.
  - intros R. rewrite (B R). split; reflexivity.
Qed.
Print Assumptions C60_saving_made_drawings.
(** What is loaded from any bytes can be saved as any version before R2007, and as any version if its data tables are regular. *)
Theorem C60_loaded_to_any_version : forall env enc bs d v, numbers_from_outside env -> load_bytes env enc bs = Ok d ->
  version_leb R2007 v = false \/ tables_regular d ->
  exists a b, save_text (in_version v d) = Ok a /\ save_binary (in_version v d) = Ok b.
Proof.
  intros env enc bs d v En L R. apply (C60_saving_made_drawings (in_version v d)); [exact (made_version v d (made_loaded env enc bs d En L))|]. rewrite version_set. intros V. destruct R as [R|R]; [congruence|].
  unfold tables_regular, in_version. destruct d. exact R.
Qed.
Print Assumptions C60_loaded_to_any_version.

Lemma env0_numbers : numbers_from_outside env0.
Proof.
  assert (C : forallb (fun s => match env0 s with FInt _ => true | _ => false end) (hs_random header_spec) = true) by (vm_compute; reflexivity).
  intros s Hs. rewrite forallb_forall in C. specialize (C s Hs). destruct (env0 s); try discriminate C. eauto.
Qed.
(** A drawing of R2007 with a data table of one column and the given number of rows, a line and a layer. *)
Definition table_file (rows : string) (cells : list string) : bytes := file_of (["0"; "SECTION"; "2"; "HEADER"; "9"; "$ACADVER"; "1"; "AC1021"; "0"; "ENDSEC";
  "0"; "SECTION"; "2"; "ENTITIES"; "0"; "LINE"; "8"; "walls"; "0"; "ENDSEC";
  "0"; "SECTION"; "2"; "OBJECTS"; "0"; "DATATABLE"; "90"; "1"; "91"; rows] ++ cells ++ ["0"; "ENDSEC"; "0"; "EOF"]).
Definition tables_in (d : drawing) : list dtable := flat_map (fun o => match ob_specific o with OCustom (CDataTable t) => [t] | _ => [] end) (dr_objects d).
Lemma tables_all d : Forall regular (tables_in d) -> tables_regular d.
Proof. intros H o t Ho E. rewrite Forall_forall in H. apply H. unfold tables_in. apply in_flat_map. exists o. split; [exact Ho|]. rewrite E. left. reflexivity. Qed.
Definition regular_check (bs : bytes) : bool :=
  match load_bytes env0 WINDOWS_1252 bs with
  | Ok d => version_leb R2007 (version_in d) && (length (tables_in d) =? 1)%nat && (length (dr_entities d) =? 1)%nat &&
      forallb (fun t => (dt_rows t =? 2)%N && (length (dt_names t) =? 1)%nat && match map_res (write_column t) (seq 0 (N.to_nat (dt_cols t))) with Ok _ => true | Err _ => false end) (tables_in d)
  | Err _ => false
  end.
Example C60_case : exists d, made d /\ load_bytes env0 WINDOWS_1252 (table_file "2" ["2"; "size"; "93"; "7"]) = Ok d /\ version_leb R2007 (version_in d) = true /\ length (tables_in d) = 1%nat /\ tables_regular d.
Proof.
  assert (C : regular_check (table_file "2" ["2"; "size"; "93"; "7"]) = true) by (vm_compute; reflexivity). unfold regular_check in C.
  destruct (load_bytes env0 WINDOWS_1252 (table_file "2" ["2"; "size"; "93"; "7"])) as [d|] eqn:L; [|discriminate C]. exists d. split; [exact (made_loaded _ _ _ _ env0_numbers L)|]. split; [reflexivity|].
  apply andb_true_iff in C as [C C4]. apply andb_true_iff in C as [C C3]. apply andb_true_iff in C as [C1 C2]. split; [exact C1|]. split; [apply Nat.eqb_eq; exact C2|].
  apply tables_all. rewrite Forall_forall. rewrite forallb_forall in C4. intros t Ht. specialize (C4 t Ht). apply andb_true_iff in C4 as [_ C4]. apply regular_writes. destruct (map_res _ _); [eauto|discriminate C4].
Qed.
(** Not every file that loads can be saved: a data table without rows, or one with a value in a column without a name. *)
Definition panics (bs : bytes) : bool :=
  match load_bytes env0 WINDOWS_1252 bs with Ok d => match save_text d, save_binary d with Err Panic, Err Panic => true | _, _ => false end | Err _ => false end.
Lemma panics_sound bs : panics bs = true -> exists d, load_bytes env0 WINDOWS_1252 bs = Ok d /\ save_text d = Err Panic /\ save_binary d = Err Panic.
Proof.
  unfold panics. destruct (load_bytes env0 WINDOWS_1252 bs) as [d|]; [|discriminate]. intros H. exists d. destruct (save_text d) as [|x]; [discriminate H|]. destruct x; try discriminate H. destruct (save_binary d) as [|x]; [discriminate H|]. destruct x; try discriminate H.
  repeat split.
Qed.
Theorem C60_any_file_refuted : Forall (fun bs => exists d, load_bytes env0 WINDOWS_1252 bs = Ok d /\ save_text d = Err Panic /\ save_binary d = Err Panic) [table_file "0" []; table_file "2" ["93"; "7"]].
Proof. repeat constructor; apply panics_sound; vm_compute; reflexivity. Qed.
Print Assumptions C60_any_file_refuted.
