(** What follows the end mark of a file (C63). *)
From Verif Require Import Base TextModel CodePairModel CodePairSpec CodePairProofs VersionModel DrawingModel FileModel FileSpec SaveModel SaveSpec SaveProofs SaveProps HeaderProps FileWitness BytesProps TrailerSpec TrailerProofs.
Open Scope string_scope.
Open Scope list_scope.
Open Scope N_scope.
Set Default Goal Selector "!".

(** A text file that can be loaded and ends with 0/EOF can be loaded with anything behind it, and that makes no difference. *)
Theorem C63_text_trailer : forall env enc bs junk d, ends_with_mark bs -> text_file_start enc bs -> load_bytes env enc bs = Ok d -> load_bytes env enc (bs ++ junk) = Ok d.
Proof. intros. apply trailing; assumption. Qed.
Print Assumptions C63_text_trailer.
Definition junk_bytes : bytes := [26; 0; 255; 10; 32; 48; 10] ++ str "SECTION" ++ [10; 50; 10] ++ str "HEADER" ++ [10; 120].
Example C63_text_case : ends_with_mark small_file /\ text_file_start UTF_8 small_file /\
  match load_bytes env0 UTF_8 small_file, load_bytes env0 UTF_8 (small_file ++ junk_bytes), open_reader UTF_8 (small_file ++ junk_bytes) with
  | Ok d, Ok d', Ok rd => one_line 0x4000000000000000 d = true /\ one_line 0x4000000000000000 d' = true /\ exists e, In (Err e) (feed_of rd)
  | _, _, _ => False
  end.
Proof.
  split; [|split].
  - exists (file_of ["  0"; "SECTION"; "  2"; "HEADER"; "  9"; "$ACADVER"; "  1"; "AC1021"; "  0"; "ENDSEC"; "  0"; "SECTION"; "  2"; "ENTITIES"; "  0"; "LINE"; " 11"; " 2.0"; "  0"; "ENDSEC"]), 2%nat, [13; 10], [13; 10].
    split; [vm_compute; reflexivity|]. split; [right; vm_compute; reflexivity|]. split; right; reflexivity.
  - intros s H. vm_compute in H. injection H as <-. split; discriminate.
  - vm_compute. split; [reflexivity|]. split; [reflexivity|]. eexists. repeat (first [left; reflexivity|right]).
Qed.

(** Every file written by [save] is such a file, whatever the drawing. *)
Theorem C63_saved_text_trailer : forall env enc d bs junk d', save_text d = Ok bs -> load_bytes env enc bs = Ok d' -> load_bytes env enc (bs ++ junk) = Ok d'.
Proof. intros env enc d bs junk d' S L. destruct (saved_text_mark d bs S) as [M T]. apply trailing; [exact M|apply T|exact L]. Qed.
Print Assumptions C63_saved_text_trailer.

(** A binary file of written pairs, the first one of code 0 and the last one 0/EOF. *)
Theorem C63_binary_trailer : forall env enc v s ps junk d, s <> [] -> Forall (binary_storable v) (mk_pair 0 (VStr s) :: ps ++ [mk_pair 0 (VStr (str "EOF"))]) ->
  let bs := write_binary (version_leb R13 v) (mk_pair 0 (VStr s) :: ps ++ [mk_pair 0 (VStr (str "EOF"))]) in
  load_bytes env enc bs = Ok d -> load_bytes env enc (bs ++ junk) = Ok d.
Proof.
  intros env enc v s ps junk d Hs F bs L. apply (binary_trailer env enc (version_leb R13 v) s ps junk d Hs); [| |exact L].
  - eapply Forall_impl; [|exact F]. intros p (H1 & H2 & _). split; assumption.
  - inversion_clear F as [|? ? _ F']. apply Forall_app in F' as [F' _]. eapply Forall_impl; [|exact F']. intros p (_ & _ & H). exact H.
Qed.
Print Assumptions C63_binary_trailer.

(** A saved drawing, in either format: what is behind it does not change what is loaded. *)
Theorem C63_saved_binary_trailer : forall env v d ps junk, drawing_sound v d -> code_pairs d = Ok ps -> Forall (binary_storable v) ps ->
  exists bs d', save_binary d = Ok bs /\ load_bytes env WINDOWS_1252 bs = Ok d' /\ load_bytes env WINDOWS_1252 (bs ++ junk) = Ok d'.
Proof.
  intros env v d ps junk Hd Hp F. destruct (save_load_binary v env d ps Hd Hp F) as (bs & d' & S & L & _). exists bs, d'. split; [exact S|]. split; [exact L|].
  unfold save_binary in S. rewrite Hp in S. cbn [bind] in S. injection S as <-. rewrite (version_of_sound v d Hd) in *. destruct (code_pairs_mark d ps Hp) as (qs & ->).
  apply (C63_binary_trailer env WINDOWS_1252 v (str "SECTION") qs junk d'); [discriminate|exact F|exact L].
Qed.
Print Assumptions C63_saved_binary_trailer.
Example C63_binary_case : let d := a_drawing R2000 (str "walls") in drawing_sound R2000 d /\ exists ps, code_pairs d = Ok ps /\ Forall (binary_storable R2000) ps.
Proof.
  cbv zeta. split; [apply drawing_soundb_sound; vm_compute; reflexivity|].
  apply (storesb_sound binary_storableb binary_storable); [|vm_compute; reflexivity]. intros p. apply binary_storableb_sound.
Qed.

(** The mark is needed: what follows the last section of a file without it is read. *)
Definition unmarked : bytes := file_of ["0"; "SECTION"; "2"; "ENTITIES"; "0"; "LINE"; "0"; "ENDSEC"].
Theorem C63_no_mark_refuted : exists bs junk, match load_bytes env0 UTF_8 bs with Ok d => length (dr_entities d) = 1%nat | Err _ => False end /\ load_bytes env0 UTF_8 (bs ++ junk) = Err (UnexpectedCodePair 0 0).
Proof. exists unmarked, [48; 10]. split; vm_compute; reflexivity. Qed.
Print Assumptions C63_no_mark_refuted.
