(** Files as bytes: C11, C53, C54, C56, C57. *)
From Verif Require Import Base TextModel CodePairModel CodePairSpec VersionModel StreamModel ExtDataModel SpecModel SpecSpec SpecCheck HeaderModel HeaderData HeaderProps
  DrawingModel FileModel FileSpec SaveModel SaveSpec LoadSpec LoadProofs LoadProps BytesProofs SaveProofs SaveProps SpecWitness FileWitness DxbProps.
From Verif Require DxbModel.
Open Scope string_scope.
Open Scope list_scope.
Open Scope N_scope.
Set Default Goal Selector "!".
Local Notation item := LoadSpec.item.

(** None of the pairs [l] is in the file, whether it is read in the given encoding or, from some point on, as UTF-8. *)
Definition file_free (l : list pair) (enc : encoding) (bs : bytes) : Prop := forall rd, open_reader enc bs = Ok rd ->
  free_of l (feed_of rd) /\ forall r, left_of r (feed_of rd) -> free_of l (feed_as_utf8 rd r).

(** * C53: loading ends *)
(** Any sequence of bytes, text, binary, DXB or none of these. Missing: files with blocks or section settings, as before. *)
Theorem C53_files_end_partial : forall env enc bs, file_free [item "BLOCK"; item "SECTIONSETTINGS"] enc bs -> load_bytes env enc bs <> Err OutOfFuel.
Proof.
  intros env enc bs H. destruct (after_dxb_line enc bs) as [r|] eqn:D; [exact (C53_dxb_ends env enc bs r D)|]. unfold load_bytes. rewrite D.
  destruct (open_reader enc bs) as [rd|e] eqn:O; cbn [bind].
  - destruct (H rd O) as [H1 H2]. apply C53_load_ends_partial; [apply feed_reports|exact H1|]. intros r Hr. split; [apply utf8_reports|exact (H2 r Hr)].
  - intros X. injection X as ->. unfold open_reader in O. destruct (read_line true enc bs) as [fl r] eqn:RL. destruct fl as [fl|e].
    + cbn [bind] in O. destruct (seqb fl _); [|discriminate O]. destruct r as [|b [|b2 r]]; try discriminate O; destruct (b =? 26); try discriminate O. destruct (b2 =? 0); discriminate O.
    + cbn [bind] in O. injection O as ->. apply ReaderProofs.read_line_genuine in RL as [RL _]. apply RL. reflexivity.
Qed.
Print Assumptions C53_files_end_partial.
(** * C54: loading does not panic *)
Theorem C54_files_do_not_panic_partial : forall env enc bs, file_free careless enc bs -> load_bytes env enc bs <> Err Panic.
Proof.
  intros env enc bs H. destruct (after_dxb_line enc bs) as [r|] eqn:D; [exact (C54_dxb_does_not_panic env enc bs r D)|]. unfold load_bytes. rewrite D.
  destruct (open_reader enc bs) as [rd|e] eqn:O; cbn [bind].
  - destruct (H rd O) as [H1 H2]. apply C54_load_does_not_panic_partial; [apply feed_reports|exact H1|]. intros r Hr. split; [apply utf8_reports|exact (H2 r Hr)].
  - intros X. injection X as ->. unfold open_reader in O. destruct (read_line true enc bs) as [fl r] eqn:RL. destruct fl as [fl|e].
    + cbn [bind] in O. destruct (seqb fl _); [|discriminate O]. destruct r as [|b [|b2 r]]; try discriminate O; destruct (b =? 26); try discriminate O. destruct (b2 =? 0); discriminate O.
    + cbn [bind] in O. injection O as ->. apply ReaderProofs.read_line_genuine in RL as [_ RL]. apply RL. reflexivity.
Qed.
Print Assumptions C54_files_do_not_panic_partial.
(** The lines of a file, one after the other. *)
Definition file_of (l : list string) : bytes := flat_map (fun s => (str s ++ [13; 10])%list) l.
(** A file that claims to be of 2007 and has a line that is not UTF-8, a comment that is not, a code that is none and a last line that is not there. *)
Definition broken_file : bytes := (file_of ["0"; "SECTION"; "2"; "HEADER"; "9"; "$ACADVER"; "1"; "AC1021"; "999"] ++ [0xE9; 10] ++ file_of ["0"; "ENDSEC"; "0"; "SECTION"; "2"; "ENTITIES"; "0"; "LINE"; "8"] ++ [0xE9; 10] ++
  file_of ["x"; "70"])%list.
Fixpoint tails {A} (l : list A) : list (list A) := l :: match l with [] => [] | _ :: r => tails r end.
Lemma tails_all {A} (r l : list A) : (exists pre, l = pre ++ r) -> In r (tails l).
Proof.
  intros [pre ->]. induction pre as [|x pre IH]; [destruct r; left; reflexivity|]. cbn [app tails]. right. exact IH.
Qed.
Definition freeb (l : list pair) (it : feed) : bool := forallb (fun x => match x with Ok p => negb (existsb (fun q => (p_code p =? p_code q)%Z && match p_value p, p_value q with
  | VStr a, VStr b => seqb a b | VShort a, VShort b | VBool a, VBool b => (a =? b)%Z | _, _ => true end) l) | Err _ => true end) it.
Lemma freeb_sound l it : freeb l it = true -> free_of l it.
Proof.
  intros H p Hp Hi. unfold freeb in H. rewrite forallb_forall in H. specialize (H _ Hi). cbv beta iota in H. apply negb_true_iff in H.
  rewrite <- Bool.not_true_iff_false in H. apply H. apply existsb_exists. exists p. split; [exact Hp|]. rewrite Z.eqb_refl. destruct (p_value p); cbn [andb]; try reflexivity; try apply Z.eqb_refl.
  apply seqb_eq. reflexivity.
Qed.
Definition file_freeb (l : list pair) (enc : encoding) (bs : bytes) : bool :=
  match open_reader enc bs with
  | Ok rd => freeb l (feed_of rd) && forallb (fun r => freeb l (feed_as_utf8 rd r)) (tails (feed_of rd))
  | Err _ => true
  end.
Lemma file_freeb_sound l enc bs : file_freeb l enc bs = true -> file_free l enc bs.
Proof.
  unfold file_freeb, file_free. intros H rd O. rewrite O in H. apply andb_true_iff in H as [H1 H2]. split; [apply freeb_sound, H1|].
  intros r Hr. rewrite forallb_forall in H2. apply freeb_sound, H2, tails_all, Hr.
Qed.
Example C53_files_case : file_free [item "BLOCK"; item "SECTIONSETTINGS"] WINDOWS_1252 broken_file /\ load_bytes env0 WINDOWS_1252 broken_file = Err MalformedString /\
  match open_reader WINDOWS_1252 broken_file with
  | Ok rd => length (feed_of rd) = 11%nat /\ length (feed_as_utf8 rd (skipn 3 (feed_of rd))) = 9%nat
  | Err _ => False
  end.
Proof. split; [apply file_freeb_sound; vm_compute; reflexivity|]. split; vm_compute; [reflexivity|]. split; reflexivity. Qed.
Example C54_files_case : file_free careless WINDOWS_1252 broken_file.
Proof. apply file_freeb_sound; vm_compute; reflexivity. Qed.

(** * C11: line ends do not matter to the drawing *)
(** Missing: CR CR LF and UTF-16 marks, as before. *)
Theorem C11_loading_line_ends_partial : forall env enc bs, no_double_cr bs = true -> no_utf16 bs -> not_binary enc bs ->
  line_text enc (without_mark (nth_line 0 bs)) <> Some (str "AutoCAD DXB 1.0") -> load_bytes env enc (to_unix bs) = load_bytes env enc bs.
Proof.
  intros env enc bs H U B D. symmetry. apply same_lines_load; [apply to_unix_same; assumption|].
  intros s Hs. assert (X : (2 <= length s)%nat -> line_text enc (without_mark (nth_line 0 bs)) = Some s).
  { intros L. destruct Hs as [Hs|Hs]; [exact Hs|exact (to_unix_first enc bs s H U L Hs)]. }
  split; intros ->; (assert (Q : (2 <= 15)%nat) by lia); [apply B|apply D]; apply X; vm_compute; lia.
Qed.
Print Assumptions C11_loading_line_ends_partial.
Definition small_file : bytes := file_of ["  0"; "SECTION"; "  2"; "HEADER"; "  9"; "$ACADVER"; "  1"; "AC1021"; "  0"; "ENDSEC"; "  0"; "SECTION"; "  2"; "ENTITIES"; "  0"; "LINE"; " 11"; " 2.0"; "  0"; "ENDSEC"; "  0"; "EOF"].
Definition one_line (x : N) (d : drawing) : bool := match dr_entities d with [e] => match entity_store e "p2.x" with FF64 y => y =? x | _ => false end | _ => false end.
Example C11_loading_case : no_double_cr small_file = true /\ no_utf16 small_file /\ not_binary WINDOWS_1252 small_file /\
  line_text WINDOWS_1252 (without_mark (nth_line 0 small_file)) <> Some (str "AutoCAD DXB 1.0") /\
  match load_bytes env0 WINDOWS_1252 small_file with Ok d => one_line 0x4000000000000000 d = true | Err _ => False end.
Proof.
  split; [vm_compute; reflexivity|]. split; [|split; [vm_compute; discriminate|split; [vm_compute; discriminate|vm_compute; reflexivity]]].
  intros n. destruct (Nat.le_gt_cases n 22) as [L|G].
  - do 23 (destruct n as [|n]; [split; reflexivity|]). lia.
  - assert (E : nth_line n small_file = []) by (unfold nth_line; apply nth_overflow; vm_compute; lia). rewrite E. split; reflexivity.
Qed.

(** * C56: text and binary files hold the same drawing *)
(** Missing: pairs that only one of the formats can store, for which it is refuted. *)
Theorem C56_text_and_binary_agree_partial : forall v env d ps, drawing_sound v d -> code_pairs d = Ok ps -> Forall (text_storable v) ps -> Forall (binary_storable v) ps ->
  exists bt bb d', save_text d = Ok bt /\ save_binary d = Ok bb /\ load_bytes env WINDOWS_1252 bt = Ok d' /\ load_bytes env WINDOWS_1252 bb = Ok d'.
Proof.
  intros v env d ps Hd Hp Ht Hb. destruct (save_load_text v env d ps Hd Hp Ht) as (bt & d1 & S1 & L1 & _ & P1).
  destruct (save_load_binary v env d ps Hd Hp Hb) as (bb & d2 & S2 & L2 & _ & P2). rewrite P1 in P2. injection P2 as <-. exists bt, bb, d1. auto.
Qed.
Print Assumptions C56_text_and_binary_agree_partial.
Example C56_case : let d := a_drawing R2000 (str "walls") in
  drawing_sound R2000 d /\ exists ps, code_pairs d = Ok ps /\ Forall (fun p => text_storable R2000 p /\ binary_storable R2000 p) ps.
Proof.
  cbv zeta. split; [apply drawing_soundb_sound; vm_compute; reflexivity|].
  apply (storesb_sound (fun v p => text_storableb v p && binary_storableb v p) (fun v p => text_storable v p /\ binary_storable v p)); [|vm_compute; reflexivity].
  intros p H. apply andb_true_iff in H as [H1 H2]. split; [apply text_storableb_sound, H1|apply binary_storableb_sound, H2].
Qed.
(** [Drawing::new()] of 2007 is not the same drawing in the two formats: a text file rounds its angles of pi/2. *)
Definition formats_differ (d : drawing) (k : string) : bool :=
  match save_text d, save_binary d with
  | Ok bt, Ok bb =>
    match load_bytes env0 WINDOWS_1252 bt, load_bytes env0 WINDOWS_1252 bb with
    | Ok dt, Ok db => negb (sameb (header_store (dr_header dt) k) (header_store (dr_header db) k))
    | _, _ => false
    end
  | _, _ => false
  end.
Lemma formats_differ_sound d k : formats_differ d k = true -> exists bt bb dt db, save_text d = Ok bt /\ save_binary d = Ok bb /\
  load_bytes env0 WINDOWS_1252 bt = Ok dt /\ load_bytes env0 WINDOWS_1252 bb = Ok db /\ ~ same (header_store (dr_header dt) k) (header_store (dr_header db) k).
Proof.
  unfold formats_differ. destruct (save_text d) as [bt|]; [|discriminate]. destruct (save_binary d) as [bb|]; [|discriminate].
  destruct (load_bytes env0 WINDOWS_1252 bt) as [dt|] eqn:T; [|discriminate]. destruct (load_bytes env0 WINDOWS_1252 bb) as [db|] eqn:B; [|discriminate].
  intros H. exists bt, bb, dt, db. repeat (split; [reflexivity || assumption|]). intros X. apply sameb_complete in X. rewrite X in H. discriminate H.
Qed.
Lemma new_drawing_differs : formats_differ (new_drawing R2007) "loft_operation_first_draft_angle" = true.
Proof. vm_compute. reflexivity. Qed.
Theorem C56_new_drawing_refuted : exists bt bb dt db, save_text (new_drawing R2007) = Ok bt /\ save_binary (new_drawing R2007) = Ok bb /\
  load_bytes env0 WINDOWS_1252 bt = Ok dt /\ load_bytes env0 WINDOWS_1252 bb = Ok db /\
  ~ same (header_store (dr_header dt) "loft_operation_first_draft_angle") (header_store (dr_header db) "loft_operation_first_draft_angle").
Proof. exact (formats_differ_sound _ _ new_drawing_differs). Qed.
Print Assumptions C56_new_drawing_refuted.

(** * C57: plain files do not depend on the encoding *)
(** [plain_byte]: a byte below 128 that is not a backslash. Missing: files with backslashes, for which it is refuted. *)
Theorem C57_plain_files_partial : forall env enc enc' bs, Forall (fun b => b < 128 /\ b <> 0x5C) bs -> load_bytes env enc bs = load_bytes env enc' bs.
Proof. intros env enc enc' bs H. exact (plain_load env enc enc' bs H). Qed.
Print Assumptions C57_plain_files_partial.
Example C57_case : Forall (fun b => b < 128 /\ b <> 0x5C) small_file /\ match load_bytes env0 UTF_8 small_file with Ok d => one_line 0x4000000000000000 d = true | Err _ => False end.
Proof.
  split; [|vm_compute; reflexivity]. apply Forall_forall. intros b Hb. assert (X : forallb (fun b => (b <? 128) && negb (b =? 0x5C)) small_file = true) by (vm_compute; reflexivity).
  rewrite forallb_forall in X. specialize (X b Hb). lia.
Qed.
(** A backslash at the end of a layer's name is lost under Windows-1252 and kept under UTF-8. *)
Definition backslash_file : bytes := file_of ["0"; "SECTION"; "2"; "ENTITIES"; "0"; "LINE"; "8"; "a\"; "0"; "ENDSEC"; "0"; "EOF"].
Definition layers_of (d : drawing) : list rstring := map en_layer (dr_entities d).
Definition loads_layers (enc : encoding) (bs : bytes) (l : list rstring) : bool :=
  match load_bytes env0 enc bs with Ok d => if list_eq_dec (list_eq_dec N.eq_dec) (layers_of d) l then true else false | Err _ => false end.
Lemma loads_layers_sound enc bs l : loads_layers enc bs l = true -> exists d, load_bytes env0 enc bs = Ok d /\ layers_of d = l.
Proof.
  unfold loads_layers. destruct (load_bytes env0 enc bs) as [d|]; [|discriminate]. destruct (list_eq_dec _ _ _); [|discriminate]. exists d. auto.
Qed.
Theorem C57_backslash_refuted : exists d1 d2, load_bytes env0 WINDOWS_1252 backslash_file = Ok d1 /\ load_bytes env0 UTF_8 backslash_file = Ok d2 /\
  map en_layer (dr_entities d1) = [str "a"] /\ map en_layer (dr_entities d2) = [str "a\"].
Proof.
  destruct (loads_layers_sound WINDOWS_1252 backslash_file [str "a"]) as (d1 & L1 & E1); [vm_compute; reflexivity|].
  destruct (loads_layers_sound UTF_8 backslash_file [str "a\"]) as (d2 & L2 & E2); [vm_compute; reflexivity|]. exists d1, d2. auto.
Qed.
Print Assumptions C57_backslash_refuted.
